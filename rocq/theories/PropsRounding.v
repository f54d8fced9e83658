(** * Theorems on rounding errors: C61, C62

    The two builds of the library (long double: 64 bits, double: 53 bits) in IEEE arithmetic, every
    operation correctly rounded.  The C library functions sin, cos and atan2 are parameters. *)
From Coq Require Import ZArith Reals QArith String Lra Lia.
From Flocq Require Import Core BinarySingleNaN.
From Verif Require Import Base Scalar RealNum Linear Integers Particle ParticleProofs Ready ParticleClaims Harness
  Lang Pure PureProofs SMNames SMRun SMMasses SMAll SMChecks IEEE SMFloat SM06 PropsClasses FloatErr RoundShell.
Close Scope Q_scope.
Open Scope R_scope.

(** ** What set_momentum leaves, in every arithmetic *)
Section Shape.
  Context {num : Num}.
  Definition xymag (q : mom num) : T num := tsqrt (v_1 q * v_1 q + v_2 q * v_2 q)%ld.
  Definition magn (q : mom num) : T num := tsqrt (xymag q * xymag q + v_3 q * v_3 q)%ld.
  Definition half_angle (q : mom num) : T num := (tatan2 (xymag q) (v_3 q) / two_)%ld.
  Definition azimuth (q : mom num) : T num := tatan2 (v_2 q) (v_1 q).
  Definition guard (q : mom num) (m : T num) : bool := tgtb (tabs ((v_0 q * v_0 q - magn q * magn q) - m * m)%ld) shell_tol.
  Lemma set_momentum_throws q m (P : particle num) : rd (pa_m P) = Ok m -> guard q m = true -> fst (set_momentum q P) = Exn MassShell.
  Proof.
    intros Hm HG. unfold set_momentum, update, sbind, modify, get, w_p, w_pxymag, w_pmag, f_p0, f_p1, f_p2, f_p3.
    cbn [rd v_0 v_1 v_2 v_3 pa_p pa_m pa_pmag pa_pxymag cells]. rewrite Hm. unfold guard, magn, xymag in HG. rewrite HG. reflexivity.
  Qed.
  Lemma new_throws g q m : guard q m = true -> fst (particle_new g q m) = Exn MassShell.
  Proof. intros HG. change (fst (set_momentum q (w_m (Val m) (particle_default g))) = Exn MassShell). apply (set_momentum_throws q m); [reflexivity|exact HG]. Qed.
  Lemma set_momentum_shape q m (P : particle num) : rd (pa_m P) = Ok m -> guard q m = false ->
    (exists b, fst (set_momentum q P) = UB b /\ strict num = true) \/
    exists P', set_momentum q P = (Ok tt, P') /\
      pa_c P' = cmk (tcos (half_angle q)) (lit (0 # 1)) /\ pa_s P' = cpolar (tsin (half_angle q)) (azimuth q) /\
      pa_sc P' = cconj (cpolar (tsin (half_angle q)) (azimuth q)) /\
      pa_rtp P' = cmk (tsqrt (v_0 q + magn q)%ld) (tZ 0) /\ pa_rtm P' = cmk (tsqrt (v_0 q - magn q)%ld) (tZ 0).
  Proof.
    intros Hm HG. unfold set_momentum, update, sbind, modify, get, w_p, w_pxymag, w_pmag, f_p0, f_p1, f_p2, f_p3.
    cbn [rd v_0 v_1 v_2 v_3 pa_p pa_m pa_pmag pa_pxymag cells]. rewrite Hm. unfold guard, magn, xymag in HG. rewrite HG.
    cbn [rd w_theta w_phi pa_theta pa_phi pa_p pa_m pa_pmag pa_pxymag]. unfold slift, polar. fold (xymag q). fold (magn q). fold (half_angle q). fold (azimuth q).
    destruct (strict num); [destruct (tgeb (tsin (half_angle q)) (tZ 0))|]; cbn [fst snd].
    - right. eexists. split; [reflexivity|]. repeat split.
    - left. eexists. split; reflexivity.
    - right. eexists. split; [reflexivity|]. repeat split.
  Qed.
  Lemma ready_shape q m (P : particle num) : guard q m = false -> ready m q P ->
    pa_c P = cmk (tcos (half_angle q)) (lit (0 # 1)) /\ pa_s P = cpolar (tsin (half_angle q)) (azimuth q) /\
    pa_sc P = cconj (cpolar (tsin (half_angle q)) (azimuth q)) /\
    pa_rtp P = cmk (tsqrt (v_0 q + magn q)%ld) (tZ 0) /\ pa_rtm P = cmk (tsqrt (v_0 q - magn q)%ld) (tZ 0).
  Proof.
    intros HG (P0 & P1 & h & H1 & H2 & H3 & ->). destruct (set_momentum_ok_empty _ _ _ H2) as [E1 E2].
    destruct (prun_transparent h P1 (empty_coh _ E1 E2) H3) as (_ & _ & U). set (Q := snd (prun h P1)) in *.
    assert (K : pa_c Q = pa_c P1 /\ pa_s Q = pa_s P1 /\ pa_sc Q = pa_sc P1 /\ pa_rtp Q = pa_rtp P1 /\ pa_rtm Q = pa_rtm P1).
    { change (pa_c (uncached Q) = pa_c (uncached P1) /\ pa_s (uncached Q) = pa_s (uncached P1) /\ pa_sc (uncached Q) = pa_sc (uncached P1) /\
        pa_rtp (uncached Q) = pa_rtp (uncached P1) /\ pa_rtm (uncached Q) = pa_rtm (uncached P1)). rewrite U. repeat split. }
    destruct K as (-> & -> & -> & -> & ->).
    destruct (set_momentum_shape q m P0 H1 HG) as [(b & E & _)|(P' & E & R)]; rewrite H2 in E; [discriminate E|]. injection E as <-. exact R.
  Qed.
End Shape.

Lemma guard_FN prec emax Hp He st lm (q0 q1 q2 q3 m : binary_float prec emax) : let num := FN st prec emax Hp He lm in
  guard (num:=num) (V4 (q0 : T num) (q1 : T num) (q2 : T num) (q3 : T num)) m = fgt prec emax (fabs prec emax (off prec emax Hp He q0 q1 q2 q3 m)) (tol prec emax Hp He).
Proof.
  cbv beta zeta delta [guard magn xymag shell_tol off tol pmag pxy FN]. cbn [v_0 v_1 v_2 v_3 T tgtb tabs tsub tmul tadd tsqrt teps tZ]. reflexivity.
Qed.

Lemma roots_FN prec emax Hp He st lm (q0 q1 q2 q3 : binary_float prec emax) : let num := FN st prec emax Hp He lm in let q : mom num := V4 (q0 : T num) (q1 : T num) (q2 : T num) (q3 : T num) in
  xymag (num:=num) q = pxy prec emax Hp He q1 q2 /\
  cmk (n:=num) (tsqrt (v_0 q + magn q)%ld) (tZ 0) = (rplus prec emax Hp He q0 q1 q2 q3, B754_zero false) /\
  cmk (n:=num) (tsqrt (v_0 q - magn q)%ld) (tZ 0) = (rminus prec emax Hp He q0 q1 q2 q3, B754_zero false).
Proof.
  cbv beta zeta delta [magn xymag rplus rminus pmag pxy FN]. cbn [v_0 v_1 v_2 v_3 T CX tsub tmul tadd tsqrt tZ cmk]. repeat split.
Qed.

(** ** C61: momenta on shell up to rounding are accepted *)
(** [z] is not further than one unit in the last place from the real number [x] (the second term:
    numbers near 0) *)
Definition rounded (prec emax : Z) (z : binary_float prec emax) (x : R) : Prop :=
  is_finite z = true /\ Rabs (B2R z - x) <= bpow radix2 (1 - prec) * Rabs x + bpow radix2 (3 - emax - prec).
Lemma rounded_close prec emax z x : rounded prec emax z x -> close prec emax z x.
Proof.
  intros (F & H). split; [exact F|]. unfold uu, eta. replace (2 * bpow radix2 (- prec)) with (bpow radix2 (1 - prec)); [exact H|].
  replace 2 with (bpow radix2 1) by reflexivity. rewrite <- bpow_plus. f_equal.
Qed.

(** In every binary format of at least 40 bits, so in both builds: *)
Theorem C61_rounded_momenta_accepted :
  forall (prec emax : Z) (Hp : Prec_gt_0 prec) (He : Prec_lt_emax prec emax), (40 <= prec)%Z -> (3 * prec <= emax)%Z ->
  forall (st : bool) (lm : libm (binary_float prec emax)) (q0 q1 q2 q3 m : binary_float prec emax) (e x y z w : R),
    (* an exact momentum on shell, energy up to 8191 *)
    e * e = x * x + y * y + z * z + w * w -> Rabs e <= 8191 ->
    (* and its rounded components *)
    rounded prec emax q0 e -> rounded prec emax q1 x -> rounded prec emax q2 y -> rounded prec emax q3 z -> rounded prec emax m w ->
    let num := FN st prec emax Hp He lm in let q : mom num := V4 (q0 : T num) (q1 : T num) (q2 : T num) (q3 : T num) in
    forall (P : particle num) g, mass P = Ok m ->
      fst (set_momentum q P) <> Exn MassShell /\ fst (particle_new g q (m : T num)) <> Exn MassShell /\
      (st = false -> fst (set_momentum q P) = Ok tt /\ fst (particle_new g q (m : T num)) = Ok tt).
Proof.
  intros prec emax Hp He Hprec Hemax st lm q0 q1 q2 q3 m e x y z w HS HE C0 C1 C2 C3 Cm num q P g Hm.
  assert (G : guard (num:=num) q m = false).
  { etransitivity; [apply guard_FN|]. apply (close_passes prec emax Hp He Hprec Hemax q0 q1 q2 q3 m e x y z w); auto using rounded_close. }
  assert (K : forall P : particle num, mass P = Ok m -> fst (set_momentum q P) <> Exn MassShell /\ (st = false -> fst (set_momentum q P) = Ok tt)).
  { intros P' Hm'. destruct (set_momentum_shape q m P' Hm' G) as [(b & E & S)|(P1 & E & _)]; rewrite E; cbn [fst].
    - split; [discriminate|]. intros ->. discriminate S.
    - split; [discriminate|reflexivity]. }
  destruct (K P Hm) as (A1 & A2). destruct (K (w_m (Val (m : T num)) (particle_default g)) eq_refl) as (B1 & B2).
  split; [exact A1|]. split; [exact B1|]. intros S. split; [apply A2, S|apply (B2 S)].
Qed.
Print Assumptions C61_rounded_momenta_accepted.

(** Hence no class throws on such momenta. *)
Theorem C61_all_classes :
  forall (prec emax : Z) (Hp : Prec_gt_0 prec) (He : Prec_lt_emax prec emax), (40 <= prec)%Z -> (3 * prec <= emax)%Z ->
  forall (lm : libm (binary_float prec emax)), let num := FN false prec emax Hp He lm in
  forall c, In c sm_classes ->
  forall (junk : id -> nat -> T num) (o : obj num), reached junk c o ->
  forall m1 m2 m3 m4 : T num,
    leg_mass o 0 m1 -> leg_mass o 1 m2 -> leg_mass o 2 m3 -> leg_mass o 3 m4 ->
    right_mass c 0 m1 -> right_mass c 1 m2 -> right_mass c 2 m3 -> right_mass c 3 m4 ->
  forall q1 q2 q3 q4 : mom num,
    Forall (fun '(q, m) => exists e x y z w, e * e = x * x + y * y + z * z + w * w /\ Rabs e <= 8191 /\
      rounded prec emax (v_0 q) e /\ rounded prec emax (v_1 q) x /\ rounded prec emax (v_2 q) y /\ rounded prec emax (v_3 q) z /\
      rounded prec emax m w) [(q1, m1); (q2, m2); (q3, m3); (q4, m4)] ->
    let g := callm junk c n_set_momenta [GMom q1; GMom q2; GMom q3; GMom q4] o in
    fst g = Ok None /\
    forall rs, forallb reading rs = true ->
    forall m, argless c m ->
      exists x, fst (callm junk c m [] (snd (orun junk c rs (snd g)))) = Ok (Some x).
Proof.
  intros prec emax Hp He Hprec Hemax lm num c Hc junk o HR m1 m2 m3 m4 L1 L2 L3 L4 R1 R2 R3 R4 q1 q2 q3 q4 HF.
  assert (K : forall (q : mom num) (m : T num), (exists e x y z w, e * e = x * x + y * y + z * z + w * w /\ Rabs e <= 8191 /\
      rounded prec emax (v_0 q) e /\ rounded prec emax (v_1 q) x /\ rounded prec emax (v_2 q) y /\ rounded prec emax (v_3 q) z /\
      rounded prec emax m w) -> fst (particle_new (fun _ => tZ 0) q m) = Ok tt).
  { intros [q0 qx qy qz] m (e & x & y & z & w & HS & HE & C0 & C1 & C2 & C3 & Cm).
    apply (C61_rounded_momenta_accepted prec emax Hp He Hprec Hemax false lm q0 qx qy qz m e x y z w HS HE C0 C1 C2 C3 Cm
      (w_m (Val (m : T num)) (particle_default (fun _ => tZ 0))) (fun _ => tZ 0) eq_refl). reflexivity. }
  pose proof (Forall_inv HF) as F1. apply Forall_inv_tail in HF. pose proof (Forall_inv HF) as F2. apply Forall_inv_tail in HF.
  pose proof (Forall_inv HF) as F3. apply Forall_inv_tail in HF. pose proof (Forall_inv HF) as F4. cbv beta iota in F1, F2, F3, F4.
  apply (C45_no_exception c Hc num (polar_lenient num eq_refl) junk o HR m1 m2 m3 m4 L1 L2 L3 L4 R1 R2 R3 R4); apply K; assumption.
Qed.
Print Assumptions C61_all_classes.

(** The tolerance is absolute, so there is no such theorem for all energies: a momentum along the z
    axis, exactly on shell in its representation, that both builds reject.  Energy 33.9 TeV and mass
    160 GeV in double, energy 33.5 TeV and mass 46.6 GeV in long double. *)
Definition dnum (n : positive) (e : Z) (H : SpecFloat.bounded 53 1024 n e = true) : binary_float 53 1024 := B754_finite false n e H.
Definition lnum (n : positive) (e : Z) (H : SpecFloat.bounded 64 16384 n e = true) : binary_float 64 16384 := B754_finite false n e H.
Definition dE := dnum 4654525514505556 (-37) eq_refl. Definition dp := dnum 4654473491282160 (-37) eq_refl. Definition dm := dnum 5633652905790464 (-45) eq_refl.
Definition lE := lnum 9440091560426614906 (-48) eq_refl. Definition lp := lnum 9440082462200398456 (-48) eq_refl. Definition lmm := lnum 13420890053150791680 (-58) eq_refl.
Lemma d_rejected st lm : guard (num:=DD st lm) (V4 (dE : T (DD st lm)) (B754_zero false : T (DD st lm)) (B754_zero false : T (DD st lm)) (dp : T (DD st lm))) dm = true.
Proof. vm_cast_no_check (eq_refl true). Qed.
Lemma l_rejected st lm : guard (num:=LD st lm) (V4 (lE : T (LD st lm)) (B754_zero false : T (LD st lm)) (B754_zero false : T (LD st lm)) (lp : T (LD st lm))) lmm = true.
Proof. vm_cast_no_check (eq_refl true). Qed.

Theorem C61_large_energies_refuted :
  (exists q m : binary_float 53 1024, exists E : binary_float 53 1024,
     is_finite q = true /\ is_finite m = true /\ is_finite E = true /\
     B2R E * B2R E = 0 * 0 + 0 * 0 + B2R q * B2R q + B2R m * B2R m /\ 33866 < B2R E < 33867 /\
     forall st lm g, fst (particle_new (num:=DD st lm) g (V4 (E : T (DD st lm)) (B754_zero false : T (DD st lm)) (B754_zero false : T (DD st lm)) (q : T (DD st lm))) (m : T (DD st lm))) = Exn MassShell) /\
  (exists q m : binary_float 64 16384, exists E : binary_float 64 16384,
     is_finite q = true /\ is_finite m = true /\ is_finite E = true /\
     B2R E * B2R E = 0 * 0 + 0 * 0 + B2R q * B2R q + B2R m * B2R m /\ 33537 < B2R E < 33538 /\
     forall st lm g, fst (particle_new (num:=LD st lm) g (V4 (E : T (LD st lm)) (B754_zero false : T (LD st lm)) (B754_zero false : T (LD st lm)) (q : T (LD st lm))) (m : T (LD st lm))) = Exn MassShell).
Proof.
  split.
  - exists dp, dm, dE. do 3 (split; [reflexivity|]). split; [|split].
    + unfold dE, dp, dm, dnum. cbn [B2R cond_Zopp]. unfold F2R. cbn [Fnum Fexp bpow].
      change (Z.pow_pos radix2 37) with (2 ^ 37)%Z. change (Z.pow_pos radix2 45) with (2 ^ 45)%Z. lra.
    + unfold dE, dnum. cbn [B2R cond_Zopp]. unfold F2R. cbn [Fnum Fexp bpow]. change (Z.pow_pos radix2 37) with (2 ^ 37)%Z. lra.
    + intros st lm g. exact (new_throws (num:=DD st lm) g _ dm (d_rejected st lm)).
  - exists lp, lmm, lE. do 3 (split; [reflexivity|]). split; [|split].
    + unfold lE, lp, lmm, lnum. cbn [B2R cond_Zopp]. unfold F2R. cbn [Fnum Fexp bpow].
      change (Z.pow_pos radix2 48) with (2 ^ 48)%Z. change (Z.pow_pos radix2 58) with (2 ^ 58)%Z. lra.
    + unfold lE, lnum. cbn [B2R cond_Zopp]. unfold F2R. cbn [Fnum Fexp bpow]. change (Z.pow_pos radix2 48) with (2 ^ 48)%Z. lra.
    + intros st lm g. exact (new_throws (num:=LD st lm) g _ lmm (l_rejected st lm)).
Qed.
Print Assumptions C61_large_energies_refuted.

Lemma near_rounded prec emax z x : near prec emax z x -> rounded prec emax z x.
Proof.
  intros (F & H). split; [exact F|]. eapply Rle_trans; [exact H|]. apply Rplus_le_compat; [|apply Rle_refl].
  apply Rmult_le_compat_r; [apply Rabs_pos|]. unfold uu. apply bpow_le. lia.
Qed.
Definition d30 := dnum 8444249301319680 (-48) eq_refl. Definition d1 := dnum 4503599627370496 (-52) eq_refl. Definition d2 := dnum 4503599627370496 (-51) eq_refl.
Definition d3 := dnum 6755399441055744 (-51) eq_refl. Definition d4 := dnum 4503599627370496 (-50) eq_refl.
Ltac dval := cbn [B2R dnum d30 d1 d2 d3 d4 cond_Zopp]; unfold F2R; cbn [Fnum Fexp bpow];
  change (Z.pow_pos radix2 48) with (2 ^ 48)%Z; change (Z.pow_pos radix2 50) with (2 ^ 50)%Z;
  change (Z.pow_pos radix2 51) with (2 ^ 51)%Z; change (Z.pow_pos radix2 52) with (2 ^ 52)%Z; lra.
Lemma exact_rounded prec emax z x : is_finite z = true -> B2R z = x -> rounded prec emax z x.
Proof.
  intros F H. split; [exact F|]. rewrite H, Rminus_diag_eq, Rabs_R0 by reflexivity.
  apply Rplus_le_le_0_compat; [apply Rmult_le_pos; [apply bpow_ge_0|apply Rabs_pos]|apply bpow_ge_0].
Qed.
(** mass 4, momentum (1,2,3): the energy sqrt(30) is rounded *)
Example C61_example :
  rounded 53 1024 (fsqrt 53 1024 Hp53 He53 d30) (sqrt 30) /\ rounded 53 1024 d1 1 /\ rounded 53 1024 d2 2 /\ rounded 53 1024 d3 3 /\ rounded 53 1024 d4 4 /\
  sqrt 30 * sqrt 30 = 1 * 1 + 2 * 2 + 3 * 3 + 4 * 4 /\ Rabs (sqrt 30) <= 8191 /\
  ~ B2R (fsqrt 53 1024 Hp53 He53 d30) * B2R (fsqrt 53 1024 Hp53 He53 d30) = 30 /\
  forall lm g, fst (particle_new (num:=DD false lm) g
    (V4 (fsqrt 53 1024 Hp53 He53 d30 : T (DD false lm)) (d1 : T (DD false lm)) (d2 : T (DD false lm)) (d3 : T (DD false lm))) (d4 : T (DD false lm))) = Ok tt.
Proof.
  assert (V : B2R d30 = 30) by dval.
  assert (R0 : rounded 53 1024 (fsqrt 53 1024 Hp53 He53 d30) (sqrt 30)).
  { rewrite <- V. apply near_rounded, sqrt_near; [reflexivity|lra]. }
  assert (R1 : rounded 53 1024 d1 1) by (apply exact_rounded; [reflexivity|dval]). assert (R2 : rounded 53 1024 d2 2) by (apply exact_rounded; [reflexivity|dval]).
  assert (R3 : rounded 53 1024 d3 3) by (apply exact_rounded; [reflexivity|dval]). assert (R4 : rounded 53 1024 d4 4) by (apply exact_rounded; [reflexivity|dval]).
  assert (S : sqrt 30 * sqrt 30 = 1 * 1 + 2 * 2 + 3 * 3 + 4 * 4) by (rewrite sqrt_sqrt; lra).
  assert (L : Rabs (sqrt 30) <= 8191). { rewrite Rabs_pos_eq by apply sqrt_pos. apply Rsqr_incr_0_var; [|lra]. unfold Rsqr. rewrite sqrt_sqrt; lra. }
  do 7 (split; [assumption|]). split.
  - assert (K : fsqrt 53 1024 Hp53 He53 d30 = dnum 6166807764706703 (-50) eq_refl) by (apply B2SF_inj; vm_cast_no_check (eq_refl (B2SF (dnum 6166807764706703 (-50) eq_refl)))).
    rewrite K. cbn [B2R dnum cond_Zopp]. unfold F2R. cbn [Fnum Fexp bpow]. change (Z.pow_pos radix2 50) with (2 ^ 50)%Z. lra.
  - intros lm g. apply (C61_rounded_momenta_accepted 53 1024 Hp53 He53 ltac:(lia) ltac:(lia) false lm _ d1 d2 d3 d4 (sqrt 30) 1 2 3 4 S L R0 R1 R2 R3 R4
      (w_m (Val (d4 : T (DD false lm))) (particle_default g)) g eq_refl). reflexivity.
Qed.

(** ** The points of the test harness in the lab frame *)
Section Lab.
  Variables prec emax : Z.
  Context (Hp : Prec_gt_0 prec) (He : Prec_lt_emax prec emax).
  Notation F := (binary_float prec emax).
  Hypothesis Hprec : (40 <= prec)%Z.
  Hypothesis Hemax : (3 * prec <= emax)%Z.
  Notation u := (uu prec). Notation mul := (fmul prec emax Hp He). Notation add := (fadd prec emax Hp He).
  Notation sub := (fsub prec emax Hp He). Notation rt := (fsqrt prec emax Hp He).
  Notation near := (FloatErr.near prec emax). Notation val := (@B2R prec emax).
  Let KK : R := 42250000.                       (* 6500^2 *)
  Lemma lab_energy (p m : F) : is_finite p = true -> is_finite m = true -> val p * val p + val m * val m <= KK ->
    is_finite (rt (add (mul p p) (mul m m))) = true /\
    Rabs (val (rt (add (mul p p) (mul m m))) * val (rt (add (mul p p) (mul m m))) - (val p * val p + val m * val m)) <= u * 211260000.
  Proof.
    intros Fp Fm H. pose proof (u_small prec Hprec) as U. assert (P0 : 0 <= val p * val p) by apply Rle_0_sqr. assert (M0 : 0 <= val m * val m) by apply Rle_0_sqr.
    unfold KK in H. assert (BG : big = 1099511627776) by reflexivity.
    assert (AB : forall x, 0 <= x <= 50000000 -> Rabs x <= big) by (intros x H1; rewrite BG, Rabs_pos_eq; lra).
    assert (A := mul_near prec emax Hp He Hprec Hemax p p Fp Fp (AB (val p * val p) ltac:(lra))). assert (PA := mul_nonneg prec emax Hp He Hprec Hemax p p (AB (val p * val p) ltac:(lra)) P0).
    assert (B := mul_near prec emax Hp He Hprec Hemax m m Fm Fm (AB (val m * val m) ltac:(lra))). assert (PB := mul_nonneg prec emax Hp He Hprec Hemax m m (AB (val m * val m) ltac:(lra)) M0).
    assert (EA := near_le2 prec emax Hprec Hemax _ _ (val p * val p) A ltac:(lra)). assert (EB := near_le2 prec emax Hprec Hemax _ _ (val m * val m) B ltac:(lra)).
    assert (UP : u * (val p * val p) + u * (val m * val m) <= u * 42250000) by (rewrite <- Rmult_plus_distr_l; apply Rmult_le_compat_l; lra).
    assert (0 <= u * (val p * val p)) by (apply Rmult_le_pos; lra). assert (0 <= u * (val m * val m)) by (apply Rmult_le_pos; lra).
    replace (u * (val p * val p + dd)) with (u * (val p * val p) + u * dd) in EA by ring. replace (u * (val m * val m + dd)) with (u * (val m * val m) + u * dd) in EB by ring.
    assert (UD : 0 <= u * dd <= u) by (unfold dd; lra).
    assert (C := add_near prec emax Hp He Hprec Hemax _ _ (proj1 A) (proj1 B) (AB (val (mul p p) + val (mul m m)) ltac:(lra))).
    assert (PC := add_nonneg prec emax Hp He Hprec Hemax _ _ (proj1 A) (proj1 B) (AB (val (mul p p) + val (mul m m)) ltac:(lra)) ltac:(lra)).
    assert (EC := near_le2 prec emax Hprec Hemax _ _ 42250001 C ltac:(lra)).
    assert (R := sqrt_near prec emax Hp He _ (proj1 C) PC). unfold dd in EC. assert (ER := square_le prec emax Hprec Hemax _ _ 42250002 R ltac:(lra) ltac:(lra)). unfold dd in ER.
    split; [exact (proj1 R)|]. apply Rabs_le. split; lra.
  Qed.
  (** the literal 1. *)
  Variable one : F.
  Hypothesis H1 : near one 1.
  Hypothesis H1r : val one = round radix2 (SpecFloat.fexp prec emax) (round_mode mode_NE) 1.
  Lemma lab_angle (c : F) : is_finite c = true -> Rabs (val c) <= 1 ->
    is_finite (rt (sub one (mul c c))) = true /\
    Rabs (val (rt (sub one (mul c c))) * val (rt (sub one (mul c c))) + val c * val c - 1) <= 51 / 10 * u.
  Proof.
    intros Fc Hc. pose proof (u_small prec Hprec) as U. assert (BG : big = 1099511627776) by reflexivity.
    assert (C1 : val c * val c <= 1). { rewrite <- (Rabs_pos_eq (val c * val c)) by apply Rle_0_sqr. rewrite Rabs_mult. replace 1 with (1 * 1) by ring. apply Rmult_le_compat; try apply Rabs_pos; exact Hc. }
    assert (C0 : 0 <= val c * val c) by apply Rle_0_sqr.
    assert (BC : Rabs (val c * val c) <= big) by (rewrite BG, Rabs_pos_eq; lra).
    assert (A := mul_near prec emax Hp He Hprec Hemax c c Fc Fc BC). assert (EA := near_le2 prec emax Hprec Hemax _ _ 1 A ltac:(lra)). unfold dd in EA.
    assert (E1 := near_le2 prec emax Hprec Hemax _ _ 1 H1 ltac:(lra)). unfold dd in E1.
    assert (L : val (mul c c) <= val one).
    { rewrite H1r. pose proof (Bmult_correct prec emax Hp He mode_NE c c) as K. rewrite (rnd_fits prec emax Hp Hprec Hemax _ BC) in K. destruct K as (K & _).
      unfold fmul. rewrite K. apply round_le; [apply (FLT_exp_valid (SpecFloat.emin prec emax) prec)|apply valid_rnd_N|exact C1]. }
    assert (PM := mul_nonneg prec emax Hp He Hprec Hemax c c BC C0).
    assert (BS : Rabs (val one - val (mul c c)) <= big) by (rewrite BG, Rabs_pos_eq; lra).
    assert (B := sub_near prec emax Hp He Hprec Hemax _ _ (proj1 H1) (proj1 A) BS). assert (PB := sub_nonneg prec emax Hp He Hprec Hemax _ _ (proj1 H1) (proj1 A) BS ltac:(lra)).
    assert (EB := near_le2 prec emax Hprec Hemax _ _ (1 + / 1000) B ltac:(lra)). unfold dd in EB.
    assert (R := sqrt_near prec emax Hp He _ (proj1 B) PB). assert (ER := square_le prec emax Hprec Hemax _ _ (1 + / 500) R ltac:(lra) ltac:(lra)). unfold dd in ER.
    split; [exact (proj1 R)|]. apply Rabs_le. split; lra.
  Qed.
  (** a product in a square *)
  Lemma lab_product (p s : F) : is_finite p = true -> is_finite s = true -> val p * val p <= KK -> val s * val s <= 2 ->
    is_finite (mul p s) = true /\ Rabs (val (mul p s) * val (mul p s) - val p * val p * (val s * val s)) <= u * (201 / 100 * (val p * val p * (val s * val s)) + 1).
  Proof.
    intros Fp Fs HP HS. pose proof (u_small prec Hprec) as U. pose proof (eta_u prec emax Hprec Hemax) as T. assert (P0 : 0 <= val p * val p) by apply Rle_0_sqr. assert (S0 : 0 <= val s * val s) by apply Rle_0_sqr. unfold KK in HP.
    set (v := val p * val s) in *. assert (V2 : val p * val p * (val s * val s) = v * v) by (unfold v; ring). rewrite V2.
    assert (VB : v * v <= 84500000). { rewrite <- V2. replace 84500000 with (42250000 * 2) by ring. apply Rmult_le_compat; lra. }
    assert (VA : Rabs v <= 10000). { apply Rsqr_incr_0_var; [|lra]. unfold Rsqr. rewrite <- Rabs_mult, Rabs_pos_eq by apply Rle_0_sqr. lra. }
    assert (A := mul_near prec emax Hp He Hprec Hemax p s Fp Fs ltac:(change big with 1099511627776; fold v; lra)). fold v in A. split; [exact (proj1 A)|].
    destruct A as (_ & A). set (w := val (mul p s)) in *. replace (w * w - v * v) with ((w - v) * (2 * v + (w - v))) by ring. rewrite Rabs_mult.
    set (a := Rabs v) in *. assert (A0 : 0 <= a) by apply Rabs_pos. assert (AA : v * v = a * a) by (unfold a; rewrite <- Rabs_mult, Rabs_pos_eq; [reflexivity|apply Rle_0_sqr]). rewrite AA in *.
    set (t := eta prec emax) in *. assert (T1 : t <= u * / 1000000 /\ t <= / 1000000) by (unfold dd in T; split; lra).
    assert (Q : Rabs (2 * v + (w - v)) <= 2 * a + (u * a + t)). { eapply Rle_trans; [apply Rabs_triang|]. rewrite Rabs_mult, (Rabs_pos_eq 2) by lra. unfold a. unfold a in A. lra. }
    eapply Rle_trans; [apply Rmult_le_compat; [apply Rabs_pos|apply Rabs_pos|exact A|exact Q]|].
    replace ((u * a + t) * (2 * a + (u * a + t))) with (u * (2 * (a * a) + u * (a * a)) + t * (2 * a + 2 * (u * a) + t)) by ring.
    assert (E1 : u * (a * a) <= / 1099511627776 * (a * a)) by (apply Rmult_le_compat_r; [apply Rmult_le_pos|]; lra).
    assert (E2 : u * a <= / 1099511627776 * a) by (apply Rmult_le_compat_r; lra).
    assert (E3 : t * (2 * a + 2 * (u * a) + t) <= u * / 1000000 * 20002) by (apply Rmult_le_compat; try lra; assert (0 <= u * a) by (apply Rmult_le_pos; lra); lra).
    assert (Q0 : 0 <= a * a) by (apply Rmult_le_pos; lra).
    assert (E4 : u * (2 * (a * a) + u * (a * a)) <= u * (201 / 100 * (a * a))) by (apply Rmult_le_compat_l; lra).
    rewrite Rmult_plus_distr_l. lra.
  Qed.
  (** (E, P sin, 0, P cos) is on shell up to eleven roundings *)
  Lemma lab_shell (p m c q1 q3 : F) : is_finite p = true -> is_finite m = true -> is_finite c = true -> Rabs (val c) <= 1 -> val p * val p + val m * val m <= KK ->
    is_finite q1 = true -> is_finite q3 = true ->
    val q1 * val q1 = val (mul p (rt (sub one (mul c c)))) * val (mul p (rt (sub one (mul c c)))) -> val q3 * val q3 = val (mul p c) * val (mul p c) ->
    let E := rt (add (mul p p) (mul m m)) in
    fgt prec emax (fabs prec emax (off prec emax Hp He E q1 (B754_zero false) q3 m)) (tol prec emax Hp He) = false.
  Proof.
    intros Fp Fm Fc Hc HK F1 F3 Q1 Q3 E. destruct (lab_energy p m Fp Fm HK) as (FE & HE). destruct (lab_angle c Fc Hc) as (FS & HS). fold E in FE, HE.
    set (s := rt (sub one (mul c c))) in *. pose proof (u_small prec Hprec) as U. assert (P0 : 0 <= val p * val p) by apply Rle_0_sqr. assert (M0 : 0 <= val m * val m) by apply Rle_0_sqr.
    assert (C0 : 0 <= val c * val c) by apply Rle_0_sqr. assert (S0 : 0 <= val s * val s) by apply Rle_0_sqr. apply Rabs_le_inv in HS. apply Rabs_le_inv in HE.
    unfold KK in HK.
    destruct (lab_product p s Fp FS ltac:(unfold KK; lra) ltac:(lra)) as (_ & E1). destruct (lab_product p c Fp Fc ltac:(unfold KK; lra) ltac:(lra)) as (_ & E3).
    rewrite <- Q1 in E1. rewrite <- Q3 in E3. apply Rabs_le_inv in E1. apply Rabs_le_inv in E3.
    set (sp := val p * val p * (val s * val s)) in *. set (cp := val p * val p * (val c * val c)) in *.
    assert (SC : - (42250000 * (51 / 10 * u)) <= sp + cp - val p * val p <= 42250000 * (51 / 10 * u)).
    { apply Rabs_le_inv. replace (sp + cp - val p * val p) with (val p * val p * (val s * val s + val c * val c - 1)) by (unfold sp, cp; ring).
      rewrite Rabs_mult, (Rabs_pos_eq _ P0). apply Rmult_le_compat; [exact P0|apply Rabs_pos|lra|apply Rabs_le; lra]. }
    assert (UB : u * (201 / 100 * sp + 1) + u * (201 / 100 * cp + 1) <= u * 84923000).
    { rewrite <- Rmult_plus_distr_l. apply Rmult_le_compat_l; lra. }
    apply (guard_passes prec emax Hp He Hprec Hemax 67108864 ltac:(lra)); auto; try reflexivity.
    - lra.
    - replace (@B2R prec emax (B754_zero false)) with 0 by reflexivity. apply Rabs_le. split; lra.
  Qed.
(** the particles that come in *)
  Lemma lab_beam (p m q3 : F) : is_finite p = true -> is_finite m = true -> val p * val p + val m * val m <= KK ->
    is_finite q3 = true -> val q3 * val q3 = val p * val p ->
    fgt prec emax (fabs prec emax (off prec emax Hp He (rt (add (mul p p) (mul m m))) (B754_zero false) (B754_zero false) q3 m)) (tol prec emax Hp He) = false.
  Proof.
    intros Fp Fm HK F3 Q3. destruct (lab_energy p m Fp Fm HK) as (FE & HE). unfold KK in HK. pose proof (u_small prec Hprec) as U. assert (P0 : 0 <= val p * val p) by apply Rle_0_sqr. assert (M0 : 0 <= val m * val m) by apply Rle_0_sqr. apply Rabs_le_inv in HE.
    apply (guard_passes prec emax Hp He Hprec Hemax 67108864 ltac:(lra)); auto; try reflexivity.
    - lra.
    - replace (@B2R prec emax (B754_zero false)) with 0 by reflexivity. apply Rabs_le. split; lra.
  Qed.
End Lab.
Lemma lit_one : fQ 53 1024 Hp53 He53 (1 # 1) = dnum 4503599627370496 (-52) eq_refl.
Proof. apply B2SF_inj. vm_cast_no_check (eq_refl (B2SF (dnum 4503599627370496 (-52) eq_refl))). Qed.
Lemma one_near prec emax Hp He : (40 <= prec)%Z -> (3 * prec <= emax)%Z -> let one := fcvt prec emax Hp He (fQ 53 1024 Hp53 He53 (1 # 1)) in
  FloatErr.near prec emax one 1 /\ B2R one = round radix2 (SpecFloat.fexp prec emax) (round_mode mode_NE) 1.
Proof.
  intros Hprec Hemax one. unfold one. rewrite lit_one. unfold dnum, fcvt. cbn [cond_Zopp].
  assert (V : F2R (Float radix2 4503599627370496 (-52)) = 1) by (unfold F2R; cbn [Fnum Fexp bpow]; change (Z.pow_pos radix2 52) with (2 ^ 52)%Z; lra).
  assert (B : Rabs (F2R (Float radix2 4503599627370496 (-52))) <= big) by (rewrite V; change big with 1099511627776; rewrite Rabs_pos_eq; lra).
  assert (N := norm_near prec emax Hp He Hprec Hemax 4503599627370496 (-52) false B). rewrite V in N. split; [exact N|].
  pose proof (binary_normalize_correct prec emax Hp He mode_NE 4503599627370496 (-52) false) as K. cbv zeta in K. rewrite (rnd_fits prec emax Hp Hprec Hemax _ B) in K. rewrite V in K. apply K.
Qed.

Lemma harness_FN prec emax Hp He lm (m1 m2 m3 m4 Pin cost : binary_float prec emax) : let num := FN false prec emax Hp He lm in
  let k := set_test_initializations (num:=num) m1 m2 m3 m4 Pin in let p : binary_float prec emax := Pout k in
  let mul := fmul prec emax Hp He in let rt := fsqrt prec emax Hp He in let add := fadd prec emax Hp He in
  let s := rt (fsub prec emax Hp He (fcvt prec emax Hp He (fQ 53 1024 Hp53 He53 (1 # 1))) (mul cost cost)) in
  let t := set_test_momenta (num:=num) k Pin cost in
  q_1 t = V4 (rt (add (mul Pin Pin) (mul m1 m1)) : T num) (B754_zero false : T num) (B754_zero false : T num) (Pin : T num) /\
  q_2 t = V4 (rt (add (mul Pin Pin) (mul m2 m2)) : T num) (B754_zero false : T num) (B754_zero false : T num) (Bopp Pin : T num) /\
  q_3 t = V4 (rt (add (mul p p) (mul m3 m3)) : T num) (mul p s : T num) (B754_zero false : T num) (mul p cost : T num) /\
  q_4 t = V4 (rt (add (mul p p) (mul m4 m4)) : T num) (Bopp (mul p s) : T num) (B754_zero false : T num) (Bopp (mul p cost) : T num).
Proof.
  cbv beta zeta delta [set_test_initializations set_test_momenta FN lit]. cbn [q_1 q_2 q_3 q_4 En1 En2 En3 En4 Pout T tsub tmul tadd tsqrt topp tdiv tZ tD dQ]. repeat split.
Qed.

Theorem C61_harness :
  forall (prec emax : Z) (Hp : Prec_gt_0 prec) (He : Prec_lt_emax prec emax), (40 <= prec)%Z -> (3 * prec <= emax)%Z ->
  forall (lm : libm (binary_float prec emax)) (m1 m2 m3 m4 Pin cost : binary_float prec emax),
    let num := FN false prec emax Hp He lm in
    let k := set_test_initializations (num:=num) m1 m2 m3 m4 Pin in let p : binary_float prec emax := Pout k in
    is_finite m1 = true -> is_finite m2 = true -> is_finite m3 = true -> is_finite m4 = true -> is_finite Pin = true -> is_finite cost = true ->
    Rabs (B2R cost) <= 1 ->
    (* beyond threshold *)
    is_finite p = true ->
    (* up to 6500 GeV *)
    B2R Pin * B2R Pin + B2R m1 * B2R m1 <= 6500 * 6500 -> B2R Pin * B2R Pin + B2R m2 * B2R m2 <= 6500 * 6500 ->
    B2R p * B2R p + B2R m3 * B2R m3 <= 6500 * 6500 -> B2R p * B2R p + B2R m4 * B2R m4 <= 6500 * 6500 ->
    let t := set_test_momenta (num:=num) k Pin cost in
    forall g, fst (particle_new (num:=num) g (q_1 t) (m1 : T num)) = Ok tt /\ fst (particle_new g (q_2 t) (m2 : T num)) = Ok tt /\
      fst (particle_new g (q_3 t) (m3 : T num)) = Ok tt /\ fst (particle_new g (q_4 t) (m4 : T num)) = Ok tt.
Proof.
  intros prec emax Hp He Hprec Hemax lm m1 m2 m3 m4 Pin cost num k p F1 F2 F3 F4 FP FC HC Fp K1 K2 K3 K4 t g.
  assert (N : forall (q : mom num) (m : T num), guard (num:=num) q m = false -> fst (particle_new (num:=num) g q m) = Ok tt).
  { intros q m G. destruct (set_momentum_shape (num:=num) q m (w_m (Val m) (particle_default g)) eq_refl G) as [(b & E & S)|(P1 & E & _)]; [discriminate S|].
    exact (f_equal fst E). }
  set (ONE := fcvt prec emax Hp He (fQ 53 1024 Hp53 He53 (1 # 1))).
  destruct (one_near prec emax Hp He Hprec Hemax) as (O1 & O2). fold ONE in O1, O2.
  assert (KB : forall x, x <= 6500 * 6500 -> x <= 42250000) by (intros; lra).
  destruct (lab_angle prec emax Hp He Hprec Hemax ONE O1 O2 cost FC HC) as (FS & HS). apply Rabs_le_inv in HS.
  pose proof (u_small prec Hprec) as U. assert (C0 : 0 <= B2R cost * B2R cost) by apply Rle_0_sqr.
  assert (M3 : 0 <= B2R m3 * B2R m3) by apply Rle_0_sqr.
  assert (C1 : B2R cost * B2R cost <= 2). { rewrite <- (Rabs_pos_eq (B2R cost * B2R cost)) by exact C0. rewrite Rabs_mult. replace 2 with (2 * 1) by ring. apply Rmult_le_compat; try apply Rabs_pos; lra. }
  assert (FX := proj1 (lab_product prec emax Hp He Hprec Hemax p _ Fp FS ltac:(lra) ltac:(lra))).
  assert (FZ := proj1 (lab_product prec emax Hp He Hprec Hemax p cost Fp FC ltac:(lra) ltac:(lra))).
  destruct (harness_FN prec emax Hp He lm m1 m2 m3 m4 Pin cost) as (G1 & G2 & G3 & G4). fold num in G1, G2, G3, G4. fold k in G1, G2, G3, G4. fold p in G3, G4. fold t in G1, G2, G3, G4. fold ONE in G3, G4.
  rewrite G1, G2, G3, G4. clear G1 G2 G3 G4. clearbody p. clear t k.
  split; [|split; [|split]]; apply N.
  - etransitivity; [exact (guard_FN prec emax Hp He false lm _ _ _ _ m1)|]. apply (lab_beam prec emax Hp He Hprec Hemax Pin m1 Pin); auto.
  - etransitivity; [exact (guard_FN prec emax Hp He false lm _ _ _ _ m2)|]. apply (lab_beam prec emax Hp He Hprec Hemax Pin m2 (Bopp Pin)); auto.
    + rewrite is_finite_Bopp. exact FP.
    + rewrite B2R_Bopp. ring.
  - etransitivity; [exact (guard_FN prec emax Hp He false lm _ _ _ _ m3)|]. apply (lab_shell prec emax Hp He Hprec Hemax ONE O1 O2 p m3 cost); auto.
  - etransitivity; [exact (guard_FN prec emax Hp He false lm _ _ _ _ m4)|]. apply (lab_shell prec emax Hp He Hprec Hemax ONE O1 O2 p m4 cost (Bopp (fmul prec emax Hp He p (fsqrt prec emax Hp He (fsub prec emax Hp He ONE (fmul prec emax Hp He cost cost))))) (Bopp (fmul prec emax Hp He p cost))); auto.
    all: rewrite ?is_finite_Bopp, ?B2R_Bopp; auto; ring.
Qed.
Print Assumptions C61_harness.


(** Hence test_2to2_amp2 (process.cpp 214-236) reaches amp2 at such a point in every class. *)
Theorem C61_harness_classes :
  forall (prec emax : Z) (Hp : Prec_gt_0 prec) (He : Prec_lt_emax prec emax), (40 <= prec)%Z -> (3 * prec <= emax)%Z ->
  forall (lm : libm (binary_float prec emax)), let num := FN false prec emax Hp He lm in
  forall c, In c sm_classes ->
  forall (junk : id -> nat -> T num) (o : obj num), reached junk c o ->
  forall m1 m2 m3 m4 : binary_float prec emax,
    leg_mass (num:=num) o 0 m1 -> leg_mass (num:=num) o 1 m2 -> leg_mass (num:=num) o 2 m3 -> leg_mass (num:=num) o 3 m4 ->
    right_mass (num:=num) c 0 m1 -> right_mass (num:=num) c 1 m2 -> right_mass (num:=num) c 2 m3 -> right_mass (num:=num) c 3 m4 ->
  forall Pin cost : binary_float prec emax,
    let k := set_test_initializations (num:=num) m1 m2 m3 m4 Pin in let p : binary_float prec emax := Pout k in
    is_finite m1 = true -> is_finite m2 = true -> is_finite m3 = true -> is_finite m4 = true -> is_finite Pin = true -> is_finite cost = true ->
    Rabs (B2R cost) <= 1 -> is_finite p = true ->
    B2R Pin * B2R Pin + B2R m1 * B2R m1 <= 6500 * 6500 -> B2R Pin * B2R Pin + B2R m2 * B2R m2 <= 6500 * 6500 ->
    B2R p * B2R p + B2R m3 * B2R m3 <= 6500 * 6500 -> B2R p * B2R p + B2R m4 * B2R m4 <= 6500 * 6500 ->
    let t := set_test_momenta (num:=num) k Pin cost in
    let g := callm junk c n_set_momenta [GMom (q_1 t); GMom (q_2 t); GMom (q_3 t); GMom (q_4 t)] o in
    fst g = Ok None /\ forall m, argless c m -> exists x, fst (callm junk c m [] (snd g)) = Ok (Some x).
Proof.
  intros prec emax Hp He Hprec Hemax lm num c Hc junk o HR m1 m2 m3 m4 L1 L2 L3 L4 R1 R2 R3 R4 Pin cost k p F1 F2 F3 F4 FP FC HC Fp K1 K2 K3 K4 t g.
  destruct (C61_harness prec emax Hp He Hprec Hemax lm m1 m2 m3 m4 Pin cost F1 F2 F3 F4 FP FC HC Fp K1 K2 K3 K4 (fun _ => tZ 0)) as (A1 & A2 & A3 & A4).
  destruct (C45_no_exception c Hc num (polar_lenient num eq_refl) junk o HR m1 m2 m3 m4 L1 L2 L3 L4 R1 R2 R3 R4 (q_1 t) (q_2 t) (q_3 t) (q_4 t) A1 A2 A3 A4) as (B1 & B2).
  split; [exact B1|]. intros m Hm. exact (B2 [] eq_refl m Hm).
Qed.
Print Assumptions C61_harness_classes.

(** masses 4, 4, 3, 2 and momentum 30 in double: Pout is 30.2..., rounded *)
Definition d5h := dnum 4503599627370496 (-53) eq_refl. Definition d31 := dnum 8725724278030336 (-48) eq_refl.
Lemma lab_pout lm : let p : binary_float 53 1024 := Pout (set_test_initializations (num:=DD false lm) d4 d4 d3 d2 d30) in
  is_finite p && Bleb p d31 && Bleb d30 p = true.
Proof. vm_cast_no_check (eq_refl true). Qed.
Example C61_harness_example : forall lm g,
  let num := DD false lm in let t := set_test_momenta (num:=num) (set_test_initializations (num:=num) d4 d4 d3 d2 d30) d30 d5h in
  fst (particle_new (num:=num) g (q_1 t) (d4 : T num)) = Ok tt /\ fst (particle_new (num:=num) g (q_2 t) (d4 : T num)) = Ok tt /\
  fst (particle_new (num:=num) g (q_3 t) (d3 : T num)) = Ok tt /\ fst (particle_new (num:=num) g (q_4 t) (d2 : T num)) = Ok tt.
Proof.
  intros lm g num t. assert (H := lab_pout lm). cbv zeta in H. apply andb_prop in H. destruct H as (H & H3). apply andb_prop in H. destruct H as (H1 & H2).
  rewrite (Bleb_correct 53 1024 _ d31 H1 eq_refl) in H2. rewrite (Bleb_correct 53 1024 d30 _ eq_refl H1) in H3.
  assert (V31 : B2R d31 = 31) by (unfold d31; dval). assert (V30 : B2R d30 = 30) by dval.
  assert (V2 : B2R d2 = 2) by dval. assert (V3 : B2R d3 = 3) by dval. assert (V4 : B2R d4 = 4) by dval.
  assert (VH : B2R d5h = / 2) by (unfold d5h; cbn [B2R dnum cond_Zopp]; unfold F2R; cbn [Fnum Fexp bpow]; change (Z.pow_pos radix2 53) with (2 ^ 53)%Z; lra).
  revert H2 H3. rewrite V31, V30. case Rle_bool_spec; intros; [|discriminate]. match goal with A : Rle_bool _ _ = true |- _ => revert A end. case Rle_bool_spec; intros; [|discriminate].
  match goal with A : ?x <= 31 |- _ => assert (S : x * x <= 31 * 31) by (apply Rmult_le_compat; lra) end.
  apply (C61_harness 53 1024 Hp53 He53 ltac:(lia) ltac:(lia) lm d4 d4 d3 d2 d30 d5h); try reflexivity; try exact H1;
    rewrite ?VH, ?V30, ?V2, ?V3, ?V4; try lra.
  1: rewrite Rabs_pos_eq; lra.
  - eapply Rle_trans; [apply Rplus_le_compat_r; exact S|lra].
  - eapply Rle_trans; [apply Rplus_le_compat_r; exact S|lra].
Qed.

(** ** C62: their spinors are numbers *)
(** what the theorem needs of the C library *)
Definition tame {prec emax} (lm : libm (binary_float prec emax)) : Prop :=
  (forall y x, is_finite y = true -> is_finite x = true -> is_finite (m_atan2 lm y x) = true /\ Rabs (B2R (m_atan2 lm y x)) <= 4) /\
  (forall x, is_finite x = true -> is_finite (m_cos lm x) = true /\ Rabs (B2R (m_cos lm x)) <= 1 /\
     is_finite (m_sin lm x) = true /\ Rabs (B2R (m_sin lm x)) <= 1).
Definition fin2 {prec emax} (z : binary_float prec emax * binary_float prec emax) : Prop := is_finite (fst z) = true /\ is_finite (snd z) = true.

Section Fin.
  Variables prec emax : Z.
  Context (Hp : Prec_gt_0 prec) (He : Prec_lt_emax prec emax).
  Notation F := (binary_float prec emax).
  Hypothesis Hprec : (40 <= prec)%Z.
  Hypothesis Hemax : (3 * prec <= emax)%Z.
  Notation mul := (fmul prec emax Hp He). Notation add := (fadd prec emax Hp He). Notation sub := (fsub prec emax Hp He).
  Definition fle (K : R) (x : F) : Prop := is_finite x = true /\ Rabs (B2R x) <= K.
  Lemma fle_fin K x : fle K x -> is_finite x = true. Proof. intros (H & _). exact H. Qed.
  Lemma near_fle z x K : near prec emax z x -> Rabs x <= K -> K <= 1048576 -> fle (K + 1) z.
  Proof.
    intros H HK HB. split; [exact (proj1 H)|]. pose proof (near_le prec emax Hprec Hemax z x K H HK) as Q. pose proof (u_small prec Hprec) as U.
    assert (uu prec * (K + dd) <= / 1099511627776 * (K + dd)). { apply Rmult_le_compat_r; [|lra]. pose proof (Rabs_pos x). unfold dd. lra. }
    replace (B2R z) with (x + (B2R z - x)) by ring. eapply Rle_trans; [apply Rabs_triang|]. unfold dd in *. lra.
  Qed.
  Lemma mul_fle x y A B : fle A x -> fle B y -> A * B <= 1048576 -> fle (A * B + 1) (mul x y).
  Proof.
    intros (X1 & X2) (Y1 & Y2) HAB. assert (P : Rabs (B2R x * B2R y) <= A * B) by (rewrite Rabs_mult; apply Rmult_le_compat; try apply Rabs_pos; assumption).
    apply (near_fle _ (B2R x * B2R y)); [|exact P|exact HAB]. apply mul_near; auto. change big with 1099511627776. lra.
  Qed.
  Lemma add_fle x y A B : fle A x -> fle B y -> A + B <= 1048576 -> fle (A + B + 1) (add x y).
  Proof.
    intros (X1 & X2) (Y1 & Y2) HAB. assert (P : Rabs (B2R x + B2R y) <= A + B) by (eapply Rle_trans; [apply Rabs_triang|lra]).
    apply (near_fle _ (B2R x + B2R y)); [|exact P|exact HAB]. apply add_near; auto. change big with 1099511627776. lra.
  Qed.
  Lemma sub_fle x y A B : fle A x -> fle B y -> A + B <= 1048576 -> fle (A + B + 1) (sub x y).
  Proof.
    intros (X1 & X2) (Y1 & Y2) HAB. assert (P : Rabs (B2R x - B2R y) <= A + B) by (unfold Rminus; eapply Rle_trans; [apply Rabs_triang|rewrite Rabs_Ropp; lra]).
    apply (near_fle _ (B2R x - B2R y)); [|exact P|exact HAB]. apply sub_near; auto. change big with 1099511627776. lra.
  Qed.
  Lemma opp_fle x A : fle A x -> fle A (fopp prec emax x).
  Proof. intros (H1 & H2). split; [unfold fopp; rewrite is_finite_Bopp; exact H1|]. unfold fopp. rewrite B2R_Bopp, Rabs_Ropp. exact H2. Qed.
  Lemma zero_fle A s : 0 <= A -> fle A (B754_zero s).
  Proof. intros H. split; [reflexivity|]. cbn [B2R]. rewrite Rabs_R0. exact H. Qed.
  Lemma weak_fle x A B : fle A x -> A <= B -> fle B x. Proof. intros (H1 & H2) H. split; [exact H1|lra]. Qed.
  (** complex numbers *)
  Definition cle (K : R) (z : F * F) : Prop := fle K (fst z) /\ fle K (snd z).
  Lemma cmul_fin st lm (z w : F * F) A B : cle A z -> cle B w -> 2 * (A * B) <= 1048570 -> 0 <= A * B -> fin2 (cmul (n:=FN st prec emax Hp He lm) z w).
  Proof.
    intros (Z1 & Z2) (W1 & W2) H H0.
    assert (M : forall x y, fle A x -> fle B y -> fle (A * B + 1) (mul x y)) by (intros x y Hx Hy; apply mul_fle; auto; lra).
    split; [exact (fle_fin _ _ (sub_fle _ _ _ _ (M _ _ Z1 W1) (M _ _ Z2 W2) ltac:(lra)))|exact (fle_fin _ _ (add_fle _ _ _ _ (M _ _ Z1 W2) (M _ _ Z2 W1) ltac:(lra)))].
  Qed.
  Lemma copp_cle st lm (z : F * F) A : cle A z -> cle A (copp (n:=FN st prec emax Hp He lm) z).
  Proof. intros (Z1 & Z2). split; apply opp_fle; assumption. Qed.
  Lemma cconj_cle st lm (z : F * F) A : cle A z -> cle A (cconj (n:=FN st prec emax Hp He lm) z).
  Proof. intros (Z1 & Z2). split; [exact Z1|apply opp_fle; exact Z2]. Qed.
End Fin.

Lemma lit_zero : fQ 53 1024 Hp53 He53 (0 # 1) = B754_zero false.
Proof. apply B2SF_inj. vm_cast_no_check (eq_refl (B2SF (prec:=53) (emax:=1024) (B754_zero false))). Qed.
Lemma lit_two : fQ 53 1024 Hp53 He53 (2 # 1) = d2.
Proof. apply B2SF_inj. vm_cast_no_check (eq_refl (B2SF d2)). Qed.

Theorem C62_finite_spinors :
  forall (prec emax : Z) (Hp : Prec_gt_0 prec) (He : Prec_lt_emax prec emax), (40 <= prec)%Z -> (3 * prec <= emax)%Z ->
  forall (st : bool) (lm : libm (binary_float prec emax)), tame lm ->
  forall (q0 q1 q2 q3 m : binary_float prec emax) (e x y z w : R),
    e * e = x * x + y * y + z * z + w * w -> / 1048576 <= e <= 8191 ->
    rounded prec emax q0 e -> rounded prec emax q1 x -> rounded prec emax q2 y -> rounded prec emax q3 z -> rounded prec emax m w ->
    let num := FN st prec emax Hp He lm in let q : mom num := V4 (q0 : T num) (q1 : T num) (q2 : T num) (q3 : T num) in
    forall P : particle num, ready (num:=num) m q P ->
      (* the spinors of massless particles *)
      (forall d v, fst (spinor0 d P) = Ok v -> fin2 (cv0 v) /\ fin2 (cv1 v)) /\
      (* and of massive ones, if the mass is not lost in the rounding of the energy *)
      (32 * bpow radix2 (- prec) * (e * e) <= w * w ->
        (forall d j up v, fst (spinor2 d j up P) = Ok v -> fin2 (cv0 v) /\ fin2 (cv1 v)) /\
        let r := B2R (fst (pa_rtp P : binary_float prec emax * binary_float prec emax)) * B2R (fst (pa_rtm P : binary_float prec emax * binary_float prec emax)) in
        Rabs (r * r - w * w) <= 32 * bpow radix2 (- prec) * (e * e)).
Proof.
  intros prec emax Hp He Hprec Hemax st lm (LA & LT) q0 q1 q2 q3 m e x y z w HS HE C0 C1 C2 C3 Cm num q P HR.
  apply rounded_close in C0. apply rounded_close in C1. apply rounded_close in C2. apply rounded_close in C3. apply rounded_close in Cm.
  assert (HE1 : Rabs e <= 8191) by (rewrite Rabs_pos_eq; lra).
  assert (G : guard (num:=num) q m = false) by (etransitivity; [apply guard_FN|]; apply (close_passes prec emax Hp He Hprec Hemax q0 q1 q2 q3 m e x y z w); auto).
  destruct (ready_shape (num:=num) q m P G HR) as (EC & ES & ESC & EP & EM).
  assert (FX := pxy_fin prec emax Hp He Hprec Hemax q0 q1 q2 q3 m e x y z w C0 C1 C2 C3 Cm HS HE1).
  destruct (rplus_ok prec emax Hp He Hprec Hemax q0 q1 q2 q3 m e x y z w C0 C1 C2 C3 Cm HS HE1 (proj1 HE)) as (RP1 & RP2).
  destruct (roots_FN prec emax Hp He st lm q0 q1 q2 q3) as (X1 & X2 & X3). fold num in X1, X2, X3. fold q in X1, X2, X3.
  rewrite <- X1 in FX. rewrite X2 in EP. rewrite X3 in EM.
  assert (TW : fle prec emax 4 (two_ (num:=num)) /\ 1 <= B2R (prec:=prec) (emax:=emax) (two_ (num:=num))).
  { unfold two_, lit. change (fle prec emax 4 (fcvt prec emax Hp He (fQ 53 1024 Hp53 He53 (2 # 1))) /\ 1 <= B2R (fcvt prec emax Hp He (fQ 53 1024 Hp53 He53 (2 # 1)))). rewrite lit_two.
    unfold d2, dnum, fcvt. cbn [cond_Zopp].
    assert (V : F2R (Float radix2 4503599627370496 (-51)) = 2) by (unfold F2R; cbn [Fnum Fexp bpow]; change (Z.pow_pos radix2 51) with (2 ^ 51)%Z; lra).
    assert (N := norm_near prec emax Hp He Hprec Hemax 4503599627370496 (-51) false ltac:(rewrite V; change big with 1099511627776; rewrite Rabs_pos_eq; lra)). rewrite V in N.
    assert (NF := near_fle prec emax Hprec Hemax _ 2 2 N ltac:(rewrite Rabs_pos_eq; lra) ltac:(lra)).
    split; [apply (weak_fle _ _ _ _ _ NF); lra|]. pose proof (near_le prec emax Hprec Hemax _ 2 2 N ltac:(rewrite Rabs_pos_eq; lra)) as Q. apply Rabs_le_inv in Q.
    pose proof (u_small prec Hprec). unfold dd in Q. lra. }
  destruct TW as ((T1 & T2) & T3).
  assert (HA : is_finite (half_angle (num:=num) q) = true).
  { destruct (LA (xymag (num:=num) q) q3 FX (proj1 C3)) as (A1 & A2). unfold half_angle.
    apply (div_near prec emax Hp He Hprec Hemax (m_atan2 lm (xymag (num:=num) q) q3) (two_ (num:=num)) A1); [lra|].
    unfold Rdiv. rewrite Rabs_mult. change big with 1099511627776.
    assert (I : Rabs (/ B2R (prec:=prec) (emax:=emax) (two_ (num:=num))) <= 1). { rewrite Rabs_pos_eq; [|apply Rlt_le, Rinv_0_lt_compat; lra]. rewrite <- Rinv_1. apply Rinv_le; lra. }
    apply Rle_trans with (4 * 1); [|lra]. apply Rmult_le_compat; try apply Rabs_pos; assumption. }
  assert (AZ : is_finite (azimuth (num:=num) q) = true) by (apply (LA q2 q1 (proj1 C2) (proj1 C1))).
  destruct (LT _ HA) as (K1 & K2 & K3 & K4). destruct (LT _ AZ) as (J1 & J2 & J3 & J4).
  set (c := pa_c P) in *. set (s := pa_s P) in *. set (sc := pa_sc P) in *. set (rp := pa_rtp P) in *. set (rm := pa_rtm P) in *.
  assert (Bc : cle prec emax 2 c).
  { rewrite EC. split; [apply (weak_fle _ _ _ 1); [split; assumption|lra]|]. unfold lit. change (fle prec emax 2 (fcvt prec emax Hp He (fQ 53 1024 Hp53 He53 (0 # 1)))).
    rewrite lit_zero. apply zero_fle. lra. }
  assert (Bs : cle prec emax 2 (cpolar (n:=num) (tsin (half_angle q)) (azimuth q))).
  { split; (apply (weak_fle _ _ _ (1 * 1 + 1)); [|lra]); apply mul_fle; try assumption; try lra; split; assumption. }
  assert (Bs1 : cle prec emax 2 s) by (rewrite ES; exact Bs). assert (Bs2 : cle prec emax 2 sc) by (rewrite ESC; apply cconj_cle; exact Bs).
  assert (Bp : cle prec emax 256 rp).
  { rewrite EP. cbn [fst snd]. split; [split; [exact RP1|rewrite Rabs_pos_eq; [apply RP2|apply RP2]]|]. apply (zero_fle prec emax 256 false). lra. }
  assert (M : forall a b, cle prec emax 256 a -> cle prec emax 2 b -> fin2 (cmul (n:=num) a b)) by (intros a b Ha Hb; apply (cmul_fin prec emax Hp He Hprec Hemax st lm a b 256 2 Ha Hb); lra).
  assert (Op : forall a, cle prec emax 256 a -> cle prec emax 256 (copp (n:=num) a)) by (intros a Ha; apply copp_cle; exact Ha).
  split.
  - intros d v Hv. rewrite (ready_spinor0_gen (num:=num) m q P d HR) in Hv. destruct (teqb (n:=num) m (tZ 0)); [|discriminate Hv]. injection Hv as <-.
    unfold spinor_value. fold c s sc rp rm. clearbody c s sc rp rm. destruct d; cbn [cv0 cv1]; split;
      first [exact (M rp c Bp Bc) | exact (M rp s Bp Bs1) | exact (M rp sc Bp Bs2) | exact (M (copp (n:=num) rp) c (Op _ Bp) Bc) | exact (M (copp (n:=num) rp) s (Op _ Bp) Bs1) | exact (M (copp (n:=num) rp) sc (Op _ Bp) Bs2)].
  - intros HW. assert (HW' : 32 * (uu prec * (e * e)) <= w * w) by (unfold uu; lra).
    destruct (rminus_ok prec emax Hp He Hprec Hemax q0 q1 q2 q3 m e x y z w C0 C1 C2 C3 Cm HS HE1 (proj1 HE) HW') as (RM1 & RM2).
    assert (Bm : cle prec emax 256 rm).
    { rewrite EM. split; [split; [exact RM1|rewrite Rabs_pos_eq; [apply RM2|apply RM2]]|]. apply (zero_fle prec emax 256 false). lra. }
    split.
    + intros d j up v Hv. rewrite (ready_spinor2_gen (num:=num) m q P d j up HR) in Hv. destruct (_ && _)%bool; [discriminate Hv|]. destruct (teqb (n:=num) m (tZ 0)); [discriminate Hv|]. injection Hv as <-.
      unfold spinor_value, kind_of. fold c s sc rp rm. clearbody c s sc rp rm. destruct d, up, (j =? -1)%Z; cbn [cv0 cv1]; split;
        first [exact (M rp c Bp Bc) | exact (M rp s Bp Bs1) | exact (M rp sc Bp Bs2) | exact (M (copp (n:=num) rp) c (Op _ Bp) Bc) | exact (M (copp (n:=num) rp) s (Op _ Bp) Bs1) | exact (M (copp (n:=num) rp) sc (Op _ Bp) Bs2) | exact (M rm c Bm Bc) | exact (M rm s Bm Bs1) | exact (M rm sc Bm Bs2) | exact (M (copp (n:=num) rm) c (Op _ Bm) Bc) | exact (M (copp (n:=num) rm) s (Op _ Bm) Bs1) | exact (M (copp (n:=num) rm) sc (Op _ Bm) Bs2)].
    + rewrite EP, EM. pose proof (roots_mass prec emax Hp He Hprec Hemax q0 q1 q2 q3 m e x y z w C0 C1 C2 C3 Cm HS HE1 (proj1 HE) HW') as Q.
      rewrite Rmult_assoc. exact Q.
Qed.
Print Assumptions C62_finite_spinors.

(** The condition holds for every particle that is at least as heavy as the electron (0.000511 GeV),
    up to 8191 GeV, in both builds. *)
Lemma electron_mass prec e w : (53 <= prec)%Z -> 0 <= e <= 8191 -> 511 / 1000000 <= w -> 32 * bpow radix2 (- prec) * (e * e) <= w * w.
Proof.
  intros Hprec He Hw. assert (B : bpow radix2 (- prec) <= / 9007199254740992). { eapply Rle_trans; [apply (bpow_le radix2 (- prec) (-53)); lia|]. change (bpow radix2 (-53)) with (/ IZR (2 ^ 53)). lra. }
  pose proof (bpow_ge_0 radix2 (- prec)) as B0. assert (E : e * e <= 8191 * 8191) by (apply Rmult_le_compat; lra). assert (E0 : 0 <= e * e) by (apply Rmult_le_pos; lra).
  assert (W : 511 / 1000000 * (511 / 1000000) <= w * w) by (apply Rmult_le_compat; lra).
  assert (bpow radix2 (- prec) * (e * e) <= / 9007199254740992 * (8191 * 8191)) by (apply Rmult_le_compat; lra). lra.
Qed.
Theorem C62_from_the_electron_mass :
  forall (prec emax : Z) (Hp : Prec_gt_0 prec) (He : Prec_lt_emax prec emax), (53 <= prec)%Z -> (3 * prec <= emax)%Z ->
  forall (st : bool) (lm : libm (binary_float prec emax)), tame lm ->
  forall (q0 q1 q2 q3 m : binary_float prec emax) (e x y z w : R),
    e * e = x * x + y * y + z * z + w * w -> 0 <= e <= 8191 -> 511 / 1000000 <= w ->
    rounded prec emax q0 e -> rounded prec emax q1 x -> rounded prec emax q2 y -> rounded prec emax q3 z -> rounded prec emax m w ->
    let num := FN st prec emax Hp He lm in let q : mom num := V4 (q0 : T num) (q1 : T num) (q2 : T num) (q3 : T num) in
    forall P : particle num, ready (num:=num) m q P ->
      forall d j up v, fst (spinor2 d j up P) = Ok v -> fin2 (cv0 v) /\ fin2 (cv1 v).
Proof.
  intros prec emax Hp He Hprec Hemax st lm LM q0 q1 q2 q3 m e x y z w HS HE HW C0 C1 C2 C3 Cm num q P HR.
  assert (L : / 1048576 <= e).
  { apply Rsqr_incr_0_var; [|lra]. unfold Rsqr. rewrite HS. assert (A : forall v, 0 <= v * v) by (intros v; apply Rle_0_sqr).
    assert (511 / 1000000 * (511 / 1000000) <= w * w) by (apply Rmult_le_compat; lra). pose proof (A x). pose proof (A y). pose proof (A z). lra. }
  apply (C62_finite_spinors prec emax Hp He ltac:(lia) Hemax st lm LM q0 q1 q2 q3 m e x y z w HS (conj L (proj2 HE)) C0 C1 C2 C3 Cm P HR).
  apply electron_mass; assumption.
Qed.
Print Assumptions C62_from_the_electron_mass.

(** For lighter particles it fails: momenta (1200,1800,1900) GeV with mass 2^-16 GeV in double and
    (1200,1700,1900) GeV with mass 2^-24 GeV in long double.  All numbers are exact but the energy,
    which is the square root rounded to nearest.  The computed |p| exceeds it, sqrt(E-p) is not a
    number and neither are the spinors, whatever the C library returns. *)
Definition dR := dnum 6331506943723674 (-41) eq_refl. Definition dX := dnum 5277655813324800 (-42) eq_refl.
Definition dY := dnum 7916483719987200 (-42) eq_refl. Definition dZ := dnum 8356288371097600 (-42) eq_refl. Definition dM := dnum 4503599627370496 (-68) eq_refl.
Definition lR := lnum 12690245555267804319 (-52) eq_refl. Definition lX := lnum 10808639105689190400 (-53) eq_refl.
Definition lY := lnum 15312238733059686400 (-53) eq_refl. Definition lZ := lnum 17113678584007884800 (-53) eq_refl. Definition lM := lnum 9223372036854775808 (-87) eq_refl.
Definition fourv (num : Num) (a b c d : T num) : mom num := V4 a b c d.
Lemma rounded_root prec emax (z : binary_float prec emax) S h : 0 <= S -> 0 <= B2R z -> 0 <= h <= / 4 -> h + h * / 3 <= bpow radix2 (- prec) ->
  B2R z * (1 - h) * (B2R z * (1 - h)) <= S <= B2R z * (1 + h) * (B2R z * (1 + h)) ->
  Rabs (B2R z - sqrt S) <= bpow radix2 (- prec) * Rabs (sqrt S).
Proof.
  intros HS Hz Hh HB (H1 & H2). set (v := B2R z) in *.
  assert (V : 0 <= v * h) by (apply Rmult_le_pos; lra). assert (V2 : v * h <= v * / 4) by (apply Rmult_le_compat_l; lra).
  assert (L : v * (1 - h) <= sqrt S). { apply Rsqr_incr_0_var; [|apply sqrt_pos]. unfold Rsqr. rewrite sqrt_sqrt by exact HS. exact H1. }
  assert (R : sqrt S <= v * (1 + h)). { apply Rsqr_incr_0_var; [|apply Rmult_le_pos; lra]. unfold Rsqr. rewrite sqrt_sqrt by exact HS. exact H2. }
  pose proof (sqrt_pos S) as S0. rewrite (Rabs_pos_eq (sqrt S)) by exact S0.
  assert (K : h * v <= (h + h * / 3) * sqrt S). { replace ((h + h * / 3) * sqrt S) with (h * (4 / 3 * sqrt S)) by field. apply Rmult_le_compat_l; lra. }
  assert (K2 : (h + h * / 3) * sqrt S <= bpow radix2 (- prec) * sqrt S) by (apply Rmult_le_compat_r; assumption).
  apply Rabs_le. split; lra.
Qed.
Lemma Bmul_nan prec emax Hp He (x : binary_float prec emax) : fmul prec emax Hp He B754_nan x = B754_nan. Proof. reflexivity. Qed.
Lemma Bsub_nan prec emax Hp He (x : binary_float prec emax) : fsub prec emax Hp He B754_nan x = B754_nan. Proof. reflexivity. Qed.
Lemma d_nan : rminus 53 1024 Hp53 He53 dR dX dY dZ = B754_nan.
Proof. apply B2SF_inj. vm_cast_no_check (eq_refl (B2SF (prec:=53) (emax:=1024) B754_nan)). Qed.
Lemma l_nan : rminus 64 16384 Hp64 He64 lR lX lY lZ = B754_nan.
Proof. apply B2SF_inj. vm_cast_no_check (eq_refl (B2SF (prec:=64) (emax:=16384) B754_nan)). Qed.
(** the spinor rangle(1) of a particle with such a momentum *)
Lemma nan_spinor prec emax Hp He lm (q0 q1 q2 q3 m : binary_float prec emax) :
  let num := FN false prec emax Hp He lm in let q := fourv num q0 q1 q2 q3 in
  guard (num:=num) q m = false -> rminus prec emax Hp He q0 q1 q2 q3 = B754_nan -> teqb (n:=num) m (tZ 0) = false ->
  forall g, exists P v, particle_new (num:=num) g q (m : T num) = (Ok tt, P) /\ fst (spinor2 RAngle 1 true P) = Ok v /\ is_nan (fst (cv1 v : binary_float prec emax * binary_float prec emax)) = true.
Proof.
  intros num q HG HN HM g. destruct (set_momentum_shape (num:=num) q m (w_m (Val (m : T num)) (particle_default g)) eq_refl HG) as [(b & _ & S)|(P & E & EC & _ & _ & _ & EM)]; [discriminate S|].
  exists P. assert (HR : ready (num:=num) m q P) by (exact (ready_new (num:=num) g m q P E)).
  eexists. split; [exact E|]. split; [rewrite (ready_spinor2_gen (num:=num) m q P RAngle 1 true HR), HM; reflexivity|].
  unfold spinor_value, kind_of. cbn [Z.eqb cv1]. rewrite EM. destruct (roots_FN prec emax Hp He false lm q0 q1 q2 q3) as (_ & _ & X).
  change (cmk (n:=num) (tsqrt (v_0 q - magn q)%ld) (tZ 0) = (rminus prec emax Hp He q0 q1 q2 q3, B754_zero false)) in X. rewrite X, HN. reflexivity.
Qed.
Lemma d_passes lm : guard (num:=DD false lm) (fourv (DD false lm) dR dX dY dZ) dM = false. Proof. vm_cast_no_check (eq_refl false). Qed.
Lemma l_passes lm : guard (num:=LD false lm) (fourv (LD false lm) lR lX lY lZ) lM = false. Proof. vm_cast_no_check (eq_refl false). Qed.
Lemma d_heavy lm : teqb (n:=DD false lm) dM (tZ 0) = false. Proof. vm_cast_no_check (eq_refl false). Qed.
Lemma l_heavy lm : teqb (n:=LD false lm) lM (tZ 0) = false. Proof. vm_cast_no_check (eq_refl false). Qed.

Theorem C62_light_particles_refuted :
  (exists (E X Y Z m : binary_float 53 1024) (e : R), e * e = B2R X * B2R X + B2R Y * B2R Y + B2R Z * B2R Z + B2R m * B2R m /\ 1 <= e <= 8191 /\ 0 < B2R m /\
     rounded 53 1024 E e /\ rounded 53 1024 X (B2R X) /\ rounded 53 1024 Y (B2R Y) /\ rounded 53 1024 Z (B2R Z) /\ rounded 53 1024 m (B2R m) /\
     forall lm g, exists P v, particle_new (num:=DD false lm) g (fourv (DD false lm) E X Y Z) (m : T (DD false lm)) = (Ok tt, P) /\
       fst (spinor2 RAngle 1 true P) = Ok v /\ is_nan (fst (cv1 v : binary_float 53 1024 * binary_float 53 1024)) = true) /\
  (exists (E X Y Z m : binary_float 64 16384) (e : R), e * e = B2R X * B2R X + B2R Y * B2R Y + B2R Z * B2R Z + B2R m * B2R m /\ 1 <= e <= 8191 /\ 0 < B2R m /\
     rounded 64 16384 E e /\ rounded 64 16384 X (B2R X) /\ rounded 64 16384 Y (B2R Y) /\ rounded 64 16384 Z (B2R Z) /\ rounded 64 16384 m (B2R m) /\
     forall lm g, exists P v, particle_new (num:=LD false lm) g (fourv (LD false lm) E X Y Z) (m : T (LD false lm)) = (Ok tt, P) /\
       fst (spinor2 RAngle 1 true P) = Ok v /\ is_nan (fst (cv1 v : binary_float 64 16384 * binary_float 64 16384)) = true).
Proof.
  split.
  - assert (VX : B2R dX = 1200) by (cbn [B2R dX dnum cond_Zopp]; unfold F2R; cbn [Fnum Fexp bpow]; change (Z.pow_pos radix2 42) with (2 ^ 42)%Z; lra).
    assert (VY : B2R dY = 1800) by (cbn [B2R dY dnum cond_Zopp]; unfold F2R; cbn [Fnum Fexp bpow]; change (Z.pow_pos radix2 42) with (2 ^ 42)%Z; lra).
    assert (VZ : B2R dZ = 1900) by (cbn [B2R dZ dnum cond_Zopp]; unfold F2R; cbn [Fnum Fexp bpow]; change (Z.pow_pos radix2 42) with (2 ^ 42)%Z; lra).
    assert (VM : B2R dM = / 65536) by (cbn [B2R dM dnum cond_Zopp]; unfold F2R; cbn [Fnum Fexp bpow]; change (Z.pow_pos radix2 68) with (2 ^ 68)%Z; lra).
    set (S := 1200 * 1200 + 1800 * 1800 + 1900 * 1900 + / 65536 * / 65536). assert (S0 : 0 <= S) by (unfold S; lra).
    exists dR, dX, dY, dZ, dM, (sqrt S). rewrite VX, VY, VZ, VM. split; [rewrite sqrt_sqrt by exact S0; reflexivity|].
    split. { split; apply Rsqr_incr_0_var; try apply sqrt_pos; try lra; unfold Rsqr; rewrite sqrt_sqrt by exact S0; unfold S; lra. }
    split; [lra|]. split; [|repeat split; try (apply exact_rounded; [reflexivity|assumption])].
    + split; [reflexivity|]. eapply Rle_trans; [apply (rounded_root 53 1024 dR S (3 / 4 * / 9007199254740992))|].
      * exact S0.
      * cbn [B2R dR dnum cond_Zopp]; unfold F2R; cbn [Fnum Fexp bpow]; change (Z.pow_pos radix2 41) with (2 ^ 41)%Z; lra.
      * lra.
      * replace (bpow radix2 (- (53))) with (/ IZR (2 ^ 53)) by reflexivity. lra.
      * cbn [B2R dR dnum cond_Zopp]; unfold F2R; cbn [Fnum Fexp bpow]; change (Z.pow_pos radix2 41) with (2 ^ 41)%Z; unfold S; lra.
      * apply Rle_trans with (bpow radix2 (1 - 53) * Rabs (sqrt S)); [apply Rmult_le_compat_r; [apply Rabs_pos|apply bpow_le; lia]|].
        pose proof (bpow_ge_0 radix2 (3 - 1024 - 53)). lra.
    + intros lm g. exact (nan_spinor 53 1024 Hp53 He53 lm dR dX dY dZ dM (d_passes lm) d_nan (d_heavy lm) g).
  - assert (VX : B2R lX = 1200) by (cbn [B2R lX lnum cond_Zopp]; unfold F2R; cbn [Fnum Fexp bpow]; change (Z.pow_pos radix2 53) with (2 ^ 53)%Z; lra).
    assert (VY : B2R lY = 1700) by (cbn [B2R lY lnum cond_Zopp]; unfold F2R; cbn [Fnum Fexp bpow]; change (Z.pow_pos radix2 53) with (2 ^ 53)%Z; lra).
    assert (VZ : B2R lZ = 1900) by (cbn [B2R lZ lnum cond_Zopp]; unfold F2R; cbn [Fnum Fexp bpow]; change (Z.pow_pos radix2 53) with (2 ^ 53)%Z; lra).
    assert (VM : B2R lM = / 16777216) by (cbn [B2R lM lnum cond_Zopp]; unfold F2R; cbn [Fnum Fexp bpow]; change (Z.pow_pos radix2 87) with (2 ^ 87)%Z; lra).
    set (S := 1200 * 1200 + 1700 * 1700 + 1900 * 1900 + / 16777216 * / 16777216). assert (S0 : 0 <= S) by (unfold S; lra).
    exists lR, lX, lY, lZ, lM, (sqrt S). rewrite VX, VY, VZ, VM. split; [rewrite sqrt_sqrt by exact S0; reflexivity|].
    split. { split; apply Rsqr_incr_0_var; try apply sqrt_pos; try lra; unfold Rsqr; rewrite sqrt_sqrt by exact S0; unfold S; lra. }
    split; [lra|]. split; [|repeat split; try (apply exact_rounded; [reflexivity|assumption])].
    + split; [reflexivity|]. eapply Rle_trans; [apply (rounded_root 64 16384 lR S (3 / 4 * / 18446744073709551616))|].
      * exact S0.
      * cbn [B2R lR lnum cond_Zopp]; unfold F2R; cbn [Fnum Fexp bpow]; change (Z.pow_pos radix2 52) with (2 ^ 52)%Z; lra.
      * lra.
      * replace (bpow radix2 (- (64))) with (/ IZR (2 ^ 64)) by reflexivity. lra.
      * cbn [B2R lR lnum cond_Zopp]; unfold F2R; cbn [Fnum Fexp bpow]; change (Z.pow_pos radix2 52) with (2 ^ 52)%Z; unfold S; lra.
      * apply Rle_trans with (bpow radix2 (1 - 64) * Rabs (sqrt S)); [apply Rmult_le_compat_r; [apply Rabs_pos|apply bpow_le; lia]|].
        pose proof (bpow_ge_0 radix2 (3 - 16384 - 64)). lra.
    + intros lm g. exact (nan_spinor 64 16384 Hp64 He64 lm lR lX lY lZ lM (l_passes lm) l_nan (l_heavy lm) g).
Qed.
Print Assumptions C62_light_particles_refuted.
(** A C library that is right on the axes (SMFloat.v) is tame; mass 12 and momentum 5 along z, in long double *)
Lemma small_const (k : binary_float 64 16384) : (is_finite k && Bleb (Babs k) (lnum 9223372036854775808 (-61) eq_refl))%bool = true -> is_finite k = true /\ Rabs (B2R k) <= 4.
Proof.
  intros H. apply andb_prop in H as (F & H). split; [exact F|]. rewrite Bleb_correct in H by (rewrite ?is_finite_Babs; auto). rewrite B2R_Babs in H.
  destruct (Rle_bool_spec (Rabs (B2R k)) (B2R (lnum 9223372036854775808 (-61) eq_refl))) as [L|L]; [|discriminate H]. eapply Rle_trans; [exact L|].
  cbn [B2R lnum cond_Zopp]. unfold F2R. cbn [Fnum Fexp bpow]. change (Z.pow_pos radix2 61) with (2 ^ 61)%Z. lra.
Qed.
Lemma unit_const (k : binary_float 64 16384) : (is_finite k && Bleb (Babs k) (lnum 9223372036854775808 (-63) eq_refl))%bool = true -> is_finite k = true /\ Rabs (B2R k) <= 1.
Proof.
  intros H. apply andb_prop in H as (F & H). split; [exact F|]. rewrite Bleb_correct in H by (rewrite ?is_finite_Babs; auto). rewrite B2R_Babs in H.
  destruct (Rle_bool_spec (Rabs (B2R k)) (B2R (lnum 9223372036854775808 (-63) eq_refl))) as [L|L]; [|discriminate H]. eapply Rle_trans; [exact L|].
  cbn [B2R lnum cond_Zopp]. unfold F2R. cbn [Fnum Fexp bpow]. change (Z.pow_pos radix2 63) with (2 ^ 63)%Z. lra.
Qed.
Lemma tame_axis : tame lm_axis.
Proof.
  split.
  - intros y x _ _. unfold lm_axis, m_atan2. repeat match goal with |- context [if ?b then _ else _] => destruct b end; apply small_const; vm_cast_no_check (eq_refl true).
  - intros x _. unfold lm_axis, m_cos, m_sin, SMFloat.near. rewrite <- and_assoc.
    repeat match goal with |- context [if ?b then _ else _] => destruct b end; split; apply unit_const; vm_cast_no_check (eq_refl true).
Qed.
Definition l13 := lnum 14987979559889010688 (-60) eq_refl. Definition l12 := lnum 13835058055282163712 (-60) eq_refl. Definition l5 := lnum 11529215046068469760 (-61) eq_refl.
Example C62_example :
  tame lm_axis /\ 13 * 13 = 0 * 0 + 0 * 0 + 5 * 5 + 12 * 12 /\ 511 / 1000000 <= 12 /\
  rounded 64 16384 l13 13 /\ rounded 64 16384 (B754_zero false) 0 /\ rounded 64 16384 l5 5 /\ rounded 64 16384 l12 12 /\
  exists P v, ready (num:=XN) l12 (fourv XN l13 (B754_zero false) (B754_zero false) l5) P /\ fst (spinor2 RSquare 1 false P) = Ok v /\
    finite_nonzero (fst (cv0 v : F80 * F80)) = true.
Proof.
  split; [exact tame_axis|]. split; [lra|]. split; [lra|].
  split; [apply exact_rounded; [reflexivity|cbn [B2R l13 lnum cond_Zopp]; unfold F2R; cbn [Fnum Fexp bpow]; change (Z.pow_pos radix2 60) with (2 ^ 60)%Z; lra]|].
  split; [apply exact_rounded; reflexivity|].
  split; [apply exact_rounded; [reflexivity|cbn [B2R l5 lnum cond_Zopp]; unfold F2R; cbn [Fnum Fexp bpow]; change (Z.pow_pos radix2 61) with (2 ^ 61)%Z; lra]|].
  split; [apply exact_rounded; [reflexivity|cbn [B2R l12 lnum cond_Zopp]; unfold F2R; cbn [Fnum Fexp bpow]; change (Z.pow_pos radix2 60) with (2 ^ 60)%Z; lra]|].
  set (q := fourv XN l13 (B754_zero false) (B754_zero false) l5).
  assert (HG : guard (num:=XN) q l12 = false) by (vm_cast_no_check (eq_refl false)).
  assert (HM : teqb (n:=XN) l12 (tZ 0) = false) by (vm_cast_no_check (eq_refl false)).
  destruct (set_momentum_shape (num:=XN) q l12 (w_m (Val (l12 : T XN)) (particle_default (fun _ => tZ (n:=XN) 0))) eq_refl HG) as [(b & _ & S)|(P & E & EC & _ & _ & _ & EM)]; [discriminate S|].
  assert (HR : ready (num:=XN) l12 q P) by (exact (ready_new (num:=XN) _ l12 q P E)).
  exists P. eexists. split; [exact HR|]. split; [rewrite (ready_spinor2_gen (num:=XN) l12 q P RSquare 1 false HR), HM; reflexivity|].
  unfold spinor_value, kind_of. cbn [Z.eqb cv0]. rewrite EC, EM. vm_cast_no_check (eq_refl true).
Qed.
