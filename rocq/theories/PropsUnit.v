(** * Property C66: the unit tests of particle and propagator assert true statements *)
From Coq Require Import Reals Lra QArith Qreals.
From Coquelicot Require Import Complex.
From Verif Require Import Base Scalar Linear Particle ParticleProofs Propagator Utilities RealNum SpecSpinor
  ParticleReal SpinorReal Ready ParticleClaims GeneratorReal PropsParticle PropsLinear PropsGenerators UnitTests.
Close Scope Q_scope.
Open Scope R_scope.

Definition all_true (n : nat) : list bool := repeat true n.

Section Gives.
  Variables (st : bool) (eps : R).
  Notation num := (RN st eps).
  Notation rmom := (vec4 R).
  Notation PT := (ST (particle num)).

  (** on a particle in use with mass m and momentum q, x gives a and leaves it in use *)
  Definition gives {A} (m : R) (q : rmom) (x : PT A) (a : A) : Prop :=
    forall P, ready (num:=num) m q P -> exists P', x P = (Ok a, P') /\ ready (num:=num) m q P'.

  Lemma gives_ap2 {A B X} m q (f : A -> B -> X) (x : PT A) (y : PT B) a b :
    gives m q x a -> gives m q y b -> gives m q (ap2 f x y) (f a b).
  Proof.
    intros Hx Hy P HP. destruct (Hx P HP) as (P1 & E1 & H1). destruct (Hy P1 H1) as (P2 & E2 & H2).
    exists P2. split; [|exact H2]. unfold ap2, sbind, sret. now rewrite E1, E2.
  Qed.
  Lemma gives_smap {A B} m q (f : A -> B) (x : PT A) a : gives m q x a -> gives m q (smap f x) (f a).
  Proof.
    intros Hx P HP. destruct (Hx P HP) as (P1 & E1 & H1). exists P1. split; [|exact H1].
    unfold smap, sbind, sret. now rewrite E1.
  Qed.
  Lemma gives_ret {A} m q (a : A) : gives m q (sret a) a.
  Proof. intros P HP. exists P. split; [reflexivity|exact HP]. Qed.
  Lemma gives_checks m q l : Forall (fun x => gives m q x true) l -> gives m q (checks l) (all_true (length l)).
  Proof.
    induction 1 as [|x l Hx Hl IH]; [apply gives_ret|].
    intros P HP. destruct (Hx P HP) as (P1 & E1 & H1). destruct (IH P1 H1) as (P2 & E2 & H2).
    exists P2. split; [|exact H2]. cbn [checks]. unfold sbind, sret. now rewrite E1, E2.
  Qed.
  (** accessors *)
  Lemma gives_acc {A} m q (o : pcall num) (f : A -> pval num) (x : PT A) a :
    is_accessor o = true -> pstep o = smap f x ->
    (forall P, ready (num:=num) m q P -> fst (x P) = Ok a) -> gives m q x a.
  Proof.
    intros Ho Ex Hx P HP. exists (snd (x P)). specialize (Hx P HP).
    pose proof (ready_step m q P o HP Ho) as HR. rewrite Ex in HR. unfold smap, sbind in HR.
    destruct (x P) as [r P']. cbn [fst snd] in *. subst r. split; [reflexivity|exact HR].
  Qed.
  Lemma gives_umat m q : gives m q umat (cmatrix_of_mom (num:=num) q true).
  Proof. apply (gives_acc m q (CMat UpMat) (VMat (num:=num))); try reflexivity. apply ready_umat. Qed.
  Lemma gives_lmat m q : gives m q lmat (cmatrix_of_mom (num:=num) q false).
  Proof. apply (gives_acc m q (CMat LoMat) (VMat (num:=num))); try reflexivity. apply ready_lmat. Qed.
  Lemma gives_0 q d : gives 0 q (spinor0 d) (rspinor st eps q (d, M0)).
  Proof.
    apply (gives_acc 0 q (CSpinor0 d) (VVec (num:=num))); try reflexivity.
    intros P HP. rewrite (ready_spinor0 _ _ _ _ _ d HP), Reqb_refl. reflexivity.
  Qed.
  Lemma gives_2 m q d j u : m <> 0 -> is_spin j -> gives m q (spinor2 d j u) (rsp st eps q d j u).
  Proof.
    intros Hm Hj. apply (gives_acc m q (CSpinor2 d j u) (VVec (num:=num))); try reflexivity.
    intros P HP. rewrite (ready_spinor2 _ _ _ _ _ d j u HP).
    rewrite (proj2 (Reqb_false m 0) Hm). destruct Hj as [-> | ->]; reflexivity.
  Qed.
  Lemma gives_mat m q d u : m <> 0 -> gives m q (spinor_matrix d u) (rmatrix st eps q d u).
  Proof.
    intros Hm. apply (gives_acc m q (CSpinorMatrix d u) (VMat (num:=num))); try reflexivity.
    intros P HP. exact (ready_spinor_matrix _ _ _ _ _ d u HP Hm).
  Qed.
  Lemma gives_gen m q g : st = false -> gives m q (gen g) (rgen st eps m q g).
  Proof.
    intros Hst. apply (gives_acc m q (CGenerator g) (VMat (num:=num))); try reflexivity.
    intros P HP. unfold gen, sconst. cbn [fst]. rewrite (ready_generator _ _ _ _ _ _ HP), Hst.
    replace (if Req_EM_T (hs q) 0 then false else false) with false by (destruct (Req_EM_T (hs q) 0); reflexivity).
    now rewrite andb_false_r.
  Qed.
  Lemma gives_angles m q : 0 <= eps -> 0 <= minksq q -> 0 <= v_0 q -> gives m q (sconst test_angles) true.
  Proof.
    intros He H1 H2. apply (gives_acc m q CTestAngles (VBool (num:=num))); try reflexivity.
    intros P HP. exact (test_angles_real _ _ _ _ _ He HP H1 H2).
  Qed.

  (** the comparisons *)
  Hypothesis He : 0 < eps.
  Lemma same_v_true m q x y a b : gives m q x a -> gives m q y b -> a = b -> gives m q (same_v x y) true.
  Proof.
    intros Hx Hy ->. destruct (C34_tolerant_equality_partial st eps (Rlt_le _ _ He)) as (R & _).
    rewrite <- (R b). exact (gives_ap2 _ _ _ _ _ _ _ Hx Hy).
  Qed.
  Lemma same_m_true m q x y a b : gives m q x a -> gives m q y b -> a = b -> gives m q (same_m x y) true.
  Proof.
    intros Hx Hy ->. destruct (C34_tolerant_equality_partial st eps (Rlt_le _ _ He)) as (_ & _ & _ & _ & R & _).
    rewrite <- (R b). exact (gives_ap2 _ _ _ _ _ _ _ Hx Hy).
  Qed.
  Lemma small_zero : small (num:=num) 0 = true.
  Proof.
    unfold small, small_tol. change (@tgtb num) with Rgtb. apply Rgtb_true.
    change (@tabs num) with Rabs. change (@tmul num teps (tZ 1000000)) with (eps * 1000000).
    rewrite Rabs_R0. apply Rlt_gt, Rabs_pos_lt. lra.
  Qed.
  Lemma small_diff (x y : C) : x = y -> small (num:=num) (@cabs num (@csub num x y)) = true.
  Proof.
    intros ->. change (@cabs num (@csub num y y)) with (Cmod (y - y)%C).
    unfold Cminus. rewrite Cplus_opp_r, Cmod_0. exact small_zero.
  Qed.
  Lemma product_true m q i j l r x e a b c :
    gives m q l a -> gives m q r b ->
    cm_get e (if (i =? 1)%Z then 1%Z else 0%Z) (if (j =? 1)%Z then 1%Z else 0%Z) = Ok c ->
    cv_dot a b = @tmulc num x c -> gives m q (product_check i j l r x e) true.
  Proof.
    intros Hl Hr Hc E P HP. destruct (gives_ap2 _ _ cv_dot _ _ _ _ Hl Hr P HP) as (P1 & E1 & H1).
    exists P1. split; [|exact H1]. unfold product_check, sbind, slift, sret. rewrite E1, Hc.
    rewrite (small_diff _ _ E). reflexivity.
  Qed.
  Lemma zero_true m q (x : PT C) a : gives m q x a -> a = RtoC 0 ->
    gives m q (smap (fun z => cx_eqb (num:=num) z (cmk (tZ 0) (tZ 0))) x) true.
  Proof.
    intros Hx ->. change true with (true && true)%bool.
    replace (true && true)%bool with (cx_eqb (num:=num) (RtoC 0) (@cmk num (@tZ num 0) (@tZ num 0))).
    - exact (gives_smap _ _ (fun z => cx_eqb (num:=num) z (cmk (tZ 0) (tZ 0))) _ _ Hx).
    - unfold cx_eqb. change (@teqb num) with Reqb. change (@cre num) with (@fst R R).
      change (@cim num) with (@snd R R). cbn [fst snd RtoC cmk RN tZ]. rewrite !Reqb_refl. reflexivity.
  Qed.
  Lemma cv_conj_conj (v : cvector num) : cv_conj (cv_conj v) = v.
  Proof. destruct v as [[a b] [c d]]. unfold cv_conj. cbn. unfold Cconj. cbn. now rewrite !Ropp_involutive. Qed.
  Lemma cv_conj_opp (v : cvector num) : cv_conj (cv_opp v) = cv_opp (cv_conj v).
  Proof. reflexivity. Qed.
  Lemma cv_opp_opp (v : cvector num) : cv_opp (cv_opp v) = v.
  Proof. destruct v as [[a b] [c d]]. unfold cv_opp. cbn. unfold Copp. cbn. now rewrite !Ropp_involutive. Qed.
  Lemma half_half : half (num:=num) = / 2.
  Proof. unfold half, lit. cbn. unfold Q2R. cbn. lra. Qed.
End Gives.

Ltac gv := first [apply gives_umat | apply gives_lmat | apply gives_0 | apply gives_ret
  | (apply gives_2; [assumption|assumption]) | (apply gives_mat; assumption) | (apply gives_gen; reflexivity)
  | (apply gives_ap2; gv) | (apply gives_smap; gv)].

Section Lists.
  Variable eps : R.
  Hypothesis He : 0 < eps.
  Notation num := (RN false eps).
  Notation rmom := (vec4 R).

  Lemma helicity_checks_true (q : rmom) : on_shell 0 q -> 0 <= v_0 q ->
    Forall (fun x => gives false eps 0 q x true) (helicity_checks (num:=num)).
  Proof.
    intros Hq H0. pose proof (massless_algebra_real false eps q Hq H0) as M.
    assert (G : forall d, cm_mul_cv (rgen false eps 0 q (lorentz_on d J3)) (rspinor false eps q (d, M0)) =
      cv_scale (num:=num) (RtoC (helicity d)) (rspinor false eps q (d, M0)) /\
      cm_mul_cv (rgen false eps 0 q (lorentz_on d JP)) (rspinor false eps q (d, M0)) = zero_vec false eps /\
      cm_mul_cv (rgen false eps 0 q (lorentz_on d JM)) (rspinor false eps q (d, M0)) = zero_vec false eps)
      by (intros d; exact (helicity_massless false eps q d)).
    unfold helicity_checks, vconj, zero_v.
    change (- half (num:=num))%ld with (- half (num:=num))%R. rewrite half_half.
    repeat apply Forall_cons; [..|apply Forall_nil];
      try (eapply same_v_true; [exact He|gv|gv|]); try (eapply same_m_true; [exact He|gv|gv|]);
      try (eapply zero_true; [gv|]).
    - rewrite <- (ml_conj1 _ _ _ _ _ _ _ _ M). symmetry. apply cv_conj_conj.
    - rewrite <- (ml_conj2 _ _ _ _ _ _ _ _ M). symmetry. apply cv_conj_conj.
    - exact (ml_dirac1 _ _ _ _ _ _ _ _ M).
    - exact (ml_dirac4 _ _ _ _ _ _ _ _ M).
    - exact (ml_prod1 _ _ _ _ _ _ _ _ M).
    - exact (ml_prod2 _ _ _ _ _ _ _ _ M).
    - exact (ml_outer1 _ _ _ _ _ _ _ _ M).
    - exact (ml_outer2 _ _ _ _ _ _ _ _ M).
    - exact (ml_dirac2 _ _ _ _ _ _ _ _ M).
    - exact (ml_dirac3 _ _ _ _ _ _ _ _ M).
    - exact (proj1 (G RAngle)).
    - exact (proj1 (proj2 (G RAngle))).
    - exact (proj2 (proj2 (G RAngle))).
    - exact (proj1 (G LAngle)).
    - exact (proj1 (proj2 (G LAngle))).
    - exact (proj2 (proj2 (G LAngle))).
    - exact (proj1 (G LSquare)).
    - exact (proj1 (proj2 (G LSquare))).
    - exact (proj2 (proj2 (G LSquare))).
    - exact (proj1 (G RSquare)).
    - exact (proj1 (proj2 (G RSquare))).
    - exact (proj2 (proj2 (G RSquare))).
  Qed.

  Section Spin.
    Variables (m : R) (q : rmom).
    Hypothesis Hm : 0 < m.
    Hypothesis Hq : on_shell m q.
    Hypothesis H0 : 0 <= v_0 q.
    Notation true_of l := (Forall (fun x => gives false eps m q x true) l).

    Lemma alg : massive_algebra false eps m (cmatrix_of_mom (num:=num) q false) (cmatrix_of_mom (num:=num) q true)
      (rsp false eps q RAngle) (rsp false eps q LAngle) (rsp false eps q LSquare) (rsp false eps q RSquare).
    Proof. pose proof (massive_algebra_real false eps m q Hq H0) as M. rewrite Rabs_pos_eq in M by lra. exact M. Qed.
    Lemma m_nz : m <> 0.
    Proof. lra. Qed.

    Lemma conj_true j : is_spin j -> true_of (conj_checks (num:=num) j).
    Proof.
      intros Hj. pose proof m_nz as Hn. pose proof alg as M. unfold conj_checks, up, low, spinor1, vconj.
      repeat apply Forall_cons; [..|apply Forall_nil]; (eapply same_v_true; [exact He|gv|gv|]).
      - rewrite <- (ma_conj1 _ _ _ _ _ _ _ _ _ M) by exact Hj. symmetry. apply cv_conj_conj.
      - rewrite <- (ma_conj3 _ _ _ _ _ _ _ _ _ M) by exact Hj. symmetry. apply cv_conj_conj.
      - rewrite <- cv_conj_opp, <- (ma_conj2 _ _ _ _ _ _ _ _ _ M) by exact Hj. symmetry. apply cv_conj_conj.
      - rewrite <- cv_conj_opp, <- (ma_conj4 _ _ _ _ _ _ _ _ _ M) by exact Hj. symmetry. apply cv_conj_conj.
    Qed.
    Lemma product_list_true ij : is_spin (fst ij) -> is_spin (snd ij) -> true_of (product_checks (num:=num) m ij).
    Proof.
      destruct ij as [i j]. cbn [fst snd]. intros Hi Hj. pose proof m_nz as Hn. pose proof alg as M.
      unfold product_checks, up, low, spinor1.
      repeat apply Forall_cons; [..|apply Forall_nil];
        (eapply product_true; [exact He|gv|gv|destruct Hi as [-> | ->], Hj as [-> | ->]; reflexivity|]).
      all: first [rewrite (ma_prod1 _ _ _ _ _ _ _ _ _ M) by assumption | rewrite (ma_prod2 _ _ _ _ _ _ _ _ _ M) by assumption
        | rewrite (ma_prod3 _ _ _ _ _ _ _ _ _ M) by assumption | rewrite (ma_prod4 _ _ _ _ _ _ _ _ _ M) by assumption
        | rewrite (ma_prod5 _ _ _ _ _ _ _ _ _ M) by assumption | rewrite (ma_prod6 _ _ _ _ _ _ _ _ _ M) by assumption
        | rewrite (ma_prod7 _ _ _ _ _ _ _ _ _ M) by assumption | rewrite (ma_prod8 _ _ _ _ _ _ _ _ _ M) by assumption].
      all: destruct Hi as [-> | ->], Hj as [-> | ->]; apply injective_projections; cbn; ring.
    Qed.
    Lemma outer_true : true_of (outer_checks (num:=num)).
    Proof.
      pose proof m_nz as Hn. pose proof alg as M. unfold outer_checks, outer_sum, up, low, spinor1.
      assert (S1 : is_spin 1) by (unfold is_spin; auto). assert (S2 : is_spin (-1)) by (unfold is_spin; auto).
      repeat apply Forall_cons; [..|apply Forall_nil]; (eapply same_m_true; [exact He|gv|gv|]).
      - exact (ma_sum1 _ _ _ _ _ _ _ _ _ M).
      - exact (ma_sum2 _ _ _ _ _ _ _ _ _ M).
      - exact (ma_sum3 _ _ _ _ _ _ _ _ _ M).
      - exact (ma_sum4 _ _ _ _ _ _ _ _ _ M).
    Qed.
    Lemma mass_true j : is_spin j -> true_of (mass_checks (num:=num) m j).
    Proof.
      intros Hj. pose proof m_nz as Hn. pose proof alg as M. unfold mass_checks, up, low, spinor1.
      repeat apply Forall_cons; [..|apply Forall_nil]; (eapply same_v_true; [exact He|gv|gv|]).
      - exact (ma_dirac1 _ _ _ _ _ _ _ _ _ M _ _ Hj).
      - exact (ma_dirac3 _ _ _ _ _ _ _ _ _ M _ _ Hj).
      - exact (ma_dirac1 _ _ _ _ _ _ _ _ _ M _ _ Hj).
      - exact (ma_dirac3 _ _ _ _ _ _ _ _ _ M _ _ Hj).
      - exact (ma_dirac2 _ _ _ _ _ _ _ _ _ M _ _ Hj).
      - exact (ma_dirac4 _ _ _ _ _ _ _ _ _ M _ _ Hj).
      - exact (ma_dirac2 _ _ _ _ _ _ _ _ _ M _ _ Hj).
      - exact (ma_dirac4 _ _ _ _ _ _ _ _ _ M _ _ Hj).
    Qed.
    Lemma algebra_true : true_of (algebra_checks (num:=num)).
    Proof.
      pose proof m_nz as Hn.
      assert (A : forall d u j, gives false eps m q (algebra_check (num:=num) (lorentz_on d j) d u (spin_on u j)) true).
      { intros d u j. eapply same_m_true; [exact He|gv|gv|]. exact (lorentz_is_spin false eps m q d u j Hq Hn H0). }
      unfold algebra_checks. repeat apply Forall_cons; [..|apply Forall_nil].
      all: lazymatch goal with |- gives _ _ _ _ (algebra_check ?l ?d ?u _) _ =>
             first [exact (A d u J3) | exact (A d u JP) | exact (A d u JM)] end.
    Qed.
    Lemma spin_checks_true : true_of (spin_checks (num:=num) m).
    Proof.
      assert (S1 : is_spin 1) by (unfold is_spin; auto). assert (S2 : is_spin (-1)) by (unfold is_spin; auto).
      unfold spin_checks. cbn [flat_map]. rewrite !app_nil_r.
      repeat (apply Forall_app; split);
        first [apply conj_true; assumption | apply product_list_true; assumption | apply outer_true
              | apply mass_true; assumption | apply algebra_true].
    Qed.
  End Spin.
End Lists.

Lemma all_true_app a b : all_true a ++ all_true b = all_true (a + b).
Proof. unfold all_true. symmetry. apply repeat_app. Qed.
Lemma times_true {S} (Inv : nat -> S -> Prop) k (body : nat -> ST S (list bool)) n : forall i w,
  Inv i w ->
  (forall j w, (i <= j < i + n)%nat -> Inv j w -> exists w', body j w = (Ok (all_true k), w') /\ Inv (j + 1)%nat w') ->
  exists w', times n body i w = (Ok (all_true (n * k)), w') /\ Inv (i + n)%nat w'.
Proof.
  induction n as [|n IH]; intros i w HI Hb.
  - exists w. split; [reflexivity|]. rewrite Nat.add_0_r. exact HI.
  - destruct (Hb i w ltac:(lia) HI) as (w1 & E1 & I1).
    destruct (IH (i + 1)%nat w1 I1) as (w2 & E2 & I2).
    { intros j w' Hj. apply Hb. lia. }
    exists w2. split; [|replace (i + Datatypes.S n)%nat with (i + 1 + n)%nat by lia; exact I2].
    cbn [times]. unfold sbind, sret. rewrite E1, E2, all_true_app.
    replace (Datatypes.S n * k)%nat with (k + n * k)%nat by lia. reflexivity.
Qed.
(** the first pass in which something goes wrong ends the test *)
Lemma times_stop {S} (body : nat -> ST S (list bool)) n i w r :
  (forall bs, r <> Ok bs) -> (0 < n)%nat -> fst (body i w) = r -> fst (times n body i w) = r.
Proof.
  intros Hr Hn Hb. destruct n as [|n]; [lia|]. cbn [times]. unfold sbind.
  destruct (body i w) as [[bs|e|u] w']; cbn [fst] in *; [|exact Hb|exact Hb].
  subst r. exfalso. exact (Hr bs eq_refl).
Qed.

Section Draws.
  Variables (st : bool) (eps : R).
  Hypothesis He : 0 <= eps.
  Notation num := (RN st eps).
  Notation rmom := (vec4 R).

  Definition drawn (s : stream num) : rmom :=
    V4 (sqrt (s 3%nat * s 3%nat + (0 + s 0%nat * s 0%nat + s 1%nat * s 1%nat + s 2%nat * s 2%nat)))
       (s 0%nat) (s 1%nat) (s 2%nat).
  Definition drawn0 (s : stream num) : rmom :=
    V4 (sqrt (0 + s 0%nat * s 0%nat + s 1%nat * s 1%nat + s 2%nat * s 2%nat)) (s 0%nat) (s 1%nat) (s 2%nat).
  Definition shift (n : nat) (s : stream num) : stream num := fun k => s (n + k)%nat.

  Lemma draw_eq (w : world (num:=num)) :
    draw_momentum (num:=num) w = (Ok (fst w 3%nat, drawn (fst w)), (shift 4 (fst w), snd w)).
  Proof.
    unfold draw_momentum, on_rng, choose_random_momentum, choose_random_ldouble, sbind, sret.
    change (@tgeb num) with Rgeb. change (@tZ num) with IZR.
    rewrite (proj2 (Rgeb_true 50 (-50))) by lra. rewrite (proj2 (Rgeb_true 50 0)) by lra. reflexivity.
  Qed.
  Lemma draw0_eq (w : world (num:=num)) :
    on_rng (choose_random_massless_momentum (num:=num) (@tZ num (-50)) (@tZ num 50)) w
    = (Ok (drawn0 (fst w)), (shift 3 (fst w), snd w)).
  Proof.
    unfold on_rng, choose_random_massless_momentum, choose_random_ldouble, sbind, sret.
    change (@tgeb num) with Rgeb. change (@tZ num) with IZR.
    rewrite (proj2 (Rgeb_true 50 (-50))) by lra. reflexivity.
  Qed.
  Lemma drawn_shell s : on_shell (s 3%nat) (drawn s) /\ 0 <= v_0 (drawn s).
  Proof.
    unfold on_shell, minksq, drawn. cbn [v_0 v_1 v_2 v_3].
    generalize (s 0%nat) (s 1%nat) (s 2%nat) (s 3%nat). change (T num) with R. intros a b c d.
    split; [|apply sqrt_pos]. rewrite sqrt_sqrt by nra. ring.
  Qed.
  Lemma drawn0_shell s : on_shell 0 (drawn0 s) /\ 0 <= v_0 (drawn0 s).
  Proof.
    unfold on_shell, minksq, drawn0. cbn [v_0 v_1 v_2 v_3].
    generalize (s 0%nat) (s 1%nat) (s 2%nat). change (T num) with R. intros a b c.
    split; [|apply sqrt_pos]. rewrite sqrt_sqrt by nra. ring.
  Qed.
  Lemma set_ready m (q : rmom) (P : particle num) : rd (pa_m P) = Ok m -> on_shell m q ->
    exists P', set_momentum (num:=num) q P = (Ok tt, P') /\ ready (num:=num) m q P'.
  Proof.
    intros Hm Hq. destruct (set_momentum_real st eps q m P Hm) as [(F & _)|(_ & P' & E & _)].
    - exfalso. unfold on_shell in Hq. rewrite Hq, Rminus_diag_eq, Rabs_R0 in F by reflexivity. lra.
    - exists P'. split; [exact E|]. exact (ready_set (num:=num) m q P P' Hm E).
  Qed.
  Lemma ready_mass m (q : rmom) (P : particle num) : ready (num:=num) m q P -> rd (pa_m P) = Ok m.
  Proof.
    intros HR.
    assert (Tr : transparent (num:=num) (sconst (@mass num))) by (apply transparent_const; reflexivity).
    destruct (ready_described st eps _ _ _ _ Tr HR) as (_ & P1 & HD & E). unfold sconst, mass in E. cbn [fst] in E.
    rewrite E. exact (de_m _ _ _ _ _ HD).
  Qed.
  Lemma new_ready g m (q : rmom) (w : world (num:=num)) : on_shell m q ->
    exists P, assign_new (num:=num) g q m w = (Ok tt, (fst w, P)) /\ ready (num:=num) m q P.
  Proof.
    intros Hq. destruct (new_on_shell st eps g m q He Hq) as (P & E & HR). exists P. split; [|exact HR].
    unfold assign_new. now rewrite E.
  Qed.
  Lemma on_p1_gives {A} m q (x : ST (particle num) A) a s P : gives st eps m q x a -> ready (num:=num) m q P ->
    exists P', on_p1 (num:=num) x (s, P) = (Ok a, (s, P')) /\ ready (num:=num) m q P'.
  Proof.
    intros Hx HP. destruct (Hx P HP) as (P' & E & H'). exists P'. split; [|exact H'].
    unfold on_p1. cbn [fst snd]. now rewrite E.
  Qed.
End Draws.

(** ** C66

    Exact arithmetic.  [s] is any sequence of random numbers (not only numbers in the
    range asked for), [g] any content of uninitialised memory. *)

(** constructor_test: both checks hold in all 100 passes. *)
Theorem C66_constructor :
  forall st eps (s : stream (RN st eps)) g g', 0 <= eps ->
    from s (constructor_test (num:=RN st eps) g) g' = Ok (all_true (100 * 2)).
Proof.
  intros st eps s g g' He.
  assert (B : forall j (w : world (num:=RN st eps)),
    exists w', constructor_body (num:=RN st eps) g j w = (Ok (all_true 2), w')).
  { intros j w. unfold constructor_body. unfold sbind at 1. rewrite draw_eq.
    destruct (drawn_shell st eps (fst w)) as [Hq H0]. set (q := drawn st eps (fst w)) in *.
    set (m := fst w 3%nat) in *. change (T (RN st eps)) with R in *.
    assert (Em : subsq (num:=RN st eps) (v_0 q * v_0 q) q = m * m).
    { unfold on_shell, minksq in Hq. rewrite <- Hq. unfold subsq.
      change (@tsub (RN st eps)) with Rminus. change (@tmul (RN st eps)) with Rmult. reflexivity. }
    change (@tmul (RN st eps) (v_0 q) (v_0 q)) with (v_0 q * v_0 q). cbv zeta. rewrite Em.
    change (@tsqrt (RN st eps)) with sqrt. set (mm := sqrt (m * m)).
    assert (Emm : mm * mm = m * m) by (apply sqrt_sqrt; nra).
    assert (Hq' : on_shell mm q) by (unfold on_shell in *; lra).
    unfold sbind at 1. destruct (new_ready st eps He (g j) mm q (shift st eps 4 (fst w), snd w) Hq') as (P & E & HR).
    rewrite E. cbn [fst].
    assert (Hpos : 0 <= minksq q) by (unfold on_shell in Hq; rewrite Hq; nra).
    destruct (on_p1_gives st eps mm q _ true (shift st eps 4 (fst w)) P (gives_angles st eps mm q He Hpos H0) HR) as (P1 & E1 & H1).
    unfold sbind at 1. rewrite E1. unfold sbind at 1. rewrite draw_eq. cbn [fst snd].
    set (s' := shift st eps 4 (fst w)). set (q2 := drawn st eps s').
    set (q3 := V4 _ _ _ _).
    assert (Hq3 : on_shell mm q3 /\ 0 <= v_0 q3).
    { unfold on_shell, minksq, q3, sumsq. cbn [v_0 v_1 v_2 v_3].
      change (@tadd (RN st eps)) with Rplus. change (@tmul (RN st eps)) with Rmult. change (T (RN st eps)) with R in *.
      generalize (v_1 q2) (v_2 q2) (v_3 q2). intros a b c.
      split; [|apply sqrt_pos]. rewrite sqrt_sqrt by nra. rewrite Emm. ring. }
    destruct Hq3 as [Hq3 H03].
    destruct (set_ready st eps He mm q3 P1 (ready_mass st eps mm q P1 H1) Hq3) as (P2 & E2 & H2).
    unfold sbind at 1. unfold on_p1 at 1. cbn [fst snd]. rewrite E2.
    assert (Hpos3 : 0 <= minksq q3) by (unfold on_shell in Hq3; rewrite Hq3; nra).
    destruct (on_p1_gives st eps mm q3 _ true (shift st eps 4 s') P2 (gives_angles st eps mm q3 He Hpos3 H03) H2) as (P3 & E3 & H3).
    unfold sbind at 1. rewrite E3. unfold sret. eexists. reflexivity. }
  unfold from, constructor_test.
  destruct (times_true (fun _ _ => True) 2 (constructor_body (num:=RN st eps) g) 100 0 (s, particle_default g') I) as (w' & E & _).
  { intros j w _ _. destruct (B j w) as (w' & E). eauto. }
  rewrite E. reflexivity.
Qed.
Print Assumptions C66_constructor.
Example C66_constructor_ex :
  from (num:=RN true 0) (fun k => INR k) (constructor_test (num:=RN true 0) (fun _ _ => 7)) (fun _ => 8) = Ok (all_true 200).
Proof. exact (C66_constructor true 0 _ _ _ (Rle_refl 0)). Qed.

(** momentum_matrices_test: all seven checks hold. *)
Theorem C66_matrices :
  forall st eps (g1 g2 : nat -> R), 0 < eps -> matrices_test (num:=RN st eps) g1 g2 = Ok (all_true 7).
Proof.
  intros st eps g1 g2 Hp. assert (He : 0 <= eps) by lra.
  assert (SQ : forall k : Z, (0 <= k)%Z -> sqrt_int (num:=RN st eps) k * sqrt_int (num:=RN st eps) k = IZR k).
  { intros k Hk. unfold sqrt_int. cbn. unfold Q2R. cbn. rewrite Rinv_1, Rmult_1_r.
    apply sqrt_sqrt. now apply IZR_le. }
  unfold matrices_test. set (mom3 := V4 _ _ _ _). set (mom1 := V4 (@tZ (RN st eps) 13) _ _ _).
  set (mom2 := V4 (@tZ (RN st eps) 5) _ _ _). cbv zeta.
  set (r23 := sqrt_int (num:=RN st eps) 23). set (r11 := sqrt_int (num:=RN st eps) (25 - 1 - 4 - 9)).
  assert (S23 : r23 * r23 = 23) by (apply SQ; lia). assert (S11 : r11 * r11 = 11) by (apply SQ; cbn; lia).
  assert (H3 : on_shell r23 mom3).
  { unfold on_shell, minksq, mom3. cbn [v_0 v_1 v_2 v_3]. rewrite S23, (SQ 8%Z) by lia.
    change (@tZ (RN st eps)) with IZR. ring. }
  assert (H1 : on_shell r23 mom1).
  { unfold on_shell, minksq, mom1. cbn [v_0 v_1 v_2 v_3]. rewrite S23. change (@tZ (RN st eps)) with IZR. ring. }
  assert (H2 : on_shell r11 mom2).
  { unfold on_shell, minksq, mom2. cbn [v_0 v_1 v_2 v_3]. rewrite S11. change (@tZ (RN st eps)) with IZR. ring. }
  destruct (new_on_shell st eps g1 r23 mom3 He H3) as (P1 & E1 & R1). rewrite E1.
  destruct (set_ready st eps He r23 mom1 P1 (ready_mass st eps _ _ _ R1) H1) as (P2 & E2 & R2).
  unfold sbind at 1. unfold on_1 at 1. cbn [fst snd]. rewrite E2.
  (* the checks on p1 alone *)
  assert (A : gives st eps r23 mom1 (checks (matrices_checks (num:=RN st eps) mom1)) (all_true 5)).
  { assert (D : forall x u, gives st eps r23 mom1 x (cmatrix_of_mom (num:=RN st eps) mom1 u) ->
      gives st eps r23 mom1 (det_check x) true).
    { intros x u Hx P HP. destruct (Hx P HP) as (P' & E & HR). exists P'. split; [|exact HR].
      unfold det_check, sbind, slift, sret. rewrite E.
      assert (Ed : cm_det (cmatrix_of_mom (num:=RN st eps) mom1 u) = Ok 23).
      { unfold cm_det. change (@tgtb (RN st eps)) with Rgtb. change (@tabs (RN st eps)) with Rabs.
        change (cm_tol (num:=RN st eps)) with (eps * 1000000).
        match goal with |- context [Rgtb (Rabs ?z) _] => replace z with 0 by (destruct u; cbn; ring) end.
        rewrite (proj2 (Rgtb_false _ _)) by (rewrite Rabs_R0; lra).
        f_equal. destruct u; cbn; ring. }
      rewrite Ed. change (@tsubc (RN st eps) 23 (@cmk (RN st eps) (tZ 23) (tZ 0))) with (@csub (RN st eps) (RtoC 23) (RtoC 23)).
      rewrite (small_diff st eps Hp _ _ eq_refl). reflexivity. }
    apply (gives_checks st eps r23 mom1 (matrices_checks (num:=RN st eps) mom1)).
    unfold matrices_checks. repeat apply Forall_cons; [..|apply Forall_nil].
    - eapply same_m_true; [exact Hp|gv|gv|reflexivity].
    - eapply same_m_true; [exact Hp|gv|gv|reflexivity].
    - apply (D _ true), gives_umat.
    - eapply same_m_true; [exact Hp|gv|gv|reflexivity].
    - apply (D _ false), gives_lmat. }
  destruct (A P2 R2) as (P3 & E3 & R3).
  unfold sbind at 1. unfold on_1 at 1. cbn [fst snd]. rewrite E3.
  destruct (set_ready st eps He r11 mom2 (particle_mass (num:=RN st eps) g2 r11) eq_refl H2) as (Q1 & F1 & T1).
  unfold sbind at 1. unfold on_2 at 1. cbn [fst snd]. rewrite F1.
  (* both particles *)
  set (ok2 := fun w : particle (RN st eps) * particle (RN st eps) =>
    ready (num:=RN st eps) r23 mom1 (fst w) /\ ready (num:=RN st eps) r11 mom2 (snd w)).
  assert (L1 : forall (x : ST _ (cmatrix (RN st eps))) a, gives st eps r23 mom1 x a ->
    forall w, ok2 w -> exists w', on_1 x w = (Ok a, w') /\ ok2 w').
  { intros x a Hx [P Q] [HP HQ]. destruct (Hx P HP) as (P' & E & HR). exists (P', Q). unfold on_1. cbn [fst snd] in *.
    rewrite E. split; [reflexivity|split; assumption]. }
  assert (L2 : forall (x : ST _ (cmatrix (RN st eps))) a, gives st eps r11 mom2 x a ->
    forall w, ok2 w -> exists w', on_2 x w = (Ok a, w') /\ ok2 w').
  { intros x a Hx [P Q] [HP HQ]. destruct (Hx Q HQ) as (Q' & E & HR). exists (P, Q'). unfold on_2. cbn [fst snd] in *.
    rewrite E. split; [reflexivity|split; assumption]. }
  assert (K : forall x y z v a b c d w, ok2 w ->
    (forall w, ok2 w -> exists w', x w = (Ok a, w') /\ ok2 w') -> (forall w, ok2 w -> exists w', y w = (Ok b, w') /\ ok2 w') ->
    (forall w, ok2 w -> exists w', z w = (Ok c, w') /\ ok2 w') -> (forall w, ok2 w -> exists w', v w = (Ok d, w') /\ ok2 w') ->
    cm_add (cm_mul a b) (cm_mul c d) = scalar_mat st eps (2 * minkdot mom1 mom2) ->
    exists w', anti_check (num:=RN st eps) x y z v w = (Ok true, w') /\ ok2 w').
  { intros x y z v a b c d w Hw Hx Hy Hz Hv E.
    destruct (Hx w Hw) as (w1 & X1 & W1). destruct (Hy w1 W1) as (w2 & X2 & W2).
    destruct (Hz w2 W2) as (w3 & X3 & W3). destruct (Hv w3 W3) as (w4 & X4 & W4).
    exists w4. split; [|exact W4].
    unfold anti_check, ap2, smap, dot12, sbind, sret. rewrite X1, X2, X3, X4.
    rewrite (ready_dot st eps _ _ _ _ _ _ (proj1 W4) (proj2 W4)), E.
    destruct (C34_tolerant_equality_partial st eps He) as (_ & _ & _ & _ & R & _).
    match goal with |- context [cm_eqb ?a ?b] => replace b with a; [rewrite R; reflexivity|] end.
    unfold scalar_mat, cm_scalet. cbn. unfold RtoC, Cmult. cbn. f_equal; f_equal; ring. }
  destruct (C08_clifford st eps r23 r11 mom1 mom2 P3 Q1 R3 T1) as (l1 & u1 & l2 & u2 & d & B1 & B2 & B3 & B4 & B5 & B6 & B7 & B8).
  rewrite (ready_lmat _ _ _ _ _ R3) in B1. rewrite (ready_umat _ _ _ _ _ R3) in B2.
  rewrite (ready_lmat _ _ _ _ _ T1) in B3. rewrite (ready_umat _ _ _ _ _ T1) in B4.
  rewrite (ready_dot st eps _ _ _ _ _ _ R3 T1) in B5.
  injection B1 as <-. injection B2 as <-. injection B3 as <-. injection B4 as <-. injection B5 as <-.
  assert (W0 : ok2 (P3, Q1)) by (split; assumption).
  destruct (K (on_1 umat) (on_2 lmat) (on_2 umat) (on_1 lmat) _ _ _ _ (P3, Q1) W0
    (L1 _ _ (gives_umat st eps r23 mom1)) (L2 _ _ (gives_lmat st eps r11 mom2))
    (L2 _ _ (gives_umat st eps r11 mom2)) (L1 _ _ (gives_lmat st eps r23 mom1)) B8) as (w1 & X1 & W1).
  destruct (K (on_1 lmat) (on_2 umat) (on_2 lmat) (on_1 umat) _ _ _ _ w1 W1
    (L1 _ _ (gives_lmat st eps r23 mom1)) (L2 _ _ (gives_umat st eps r11 mom2))
    (L2 _ _ (gives_lmat st eps r11 mom2)) (L1 _ _ (gives_umat st eps r23 mom1)) B7) as (w2 & X2 & W2).
  cbn [checks]. unfold sbind, sret. rewrite X1, X2. reflexivity.
Qed.
Print Assumptions C66_matrices.

(** helicity_spinors_test, with the usual behaviour of std::polar: all 22 checks hold in
    all 100 passes. *)
Theorem C66_helicity :
  forall eps (s : stream (RN false eps)) g g', 0 < eps ->
    from s (helicity_test (num:=RN false eps) g) g' = Ok (all_true (100 * 22)).
Proof.
  intros eps s g g' Hp. assert (He : 0 <= eps) by lra.
  unfold from, helicity_test. set (q0 := V4 _ _ _ _).
  assert (H0 : on_shell 0 q0).
  { unfold on_shell, minksq, q0. cbn [v_0 v_1 v_2 v_3]. unfold sqrt_int. cbn. unfold Q2R. cbn.
    rewrite Rinv_1, Rmult_1_r, sqrt_sqrt by lra. ring. }
  unfold sbind. destruct (new_ready false eps He g 0 q0 (s, particle_default g') H0) as (P & E & HR).
  change (@tZ (RN false eps) 0) with 0. rewrite E. cbn [fst].
  destruct (times_true (fun _ (w : world (num:=RN false eps)) => rd (pa_m (snd w)) = Ok 0) 22 (helicity_body (num:=RN false eps)) 100 0 (s, P))
    as (w' & E' & _).
  - exact (ready_mass false eps _ _ _ HR).
  - intros j w _ Hm. unfold helicity_body, sbind. rewrite draw0_eq.
    destruct (drawn0_shell false eps (fst w)) as [Hq Hq0]. set (q := drawn0 false eps (fst w)) in *.
    destruct (set_ready false eps He 0 q (snd w) Hm Hq) as (P1 & E1 & H1).
    unfold on_p1 at 1. cbn [fst snd]. rewrite E1.
    destruct (on_p1_gives false eps 0 q _ _ (shift false eps 3 (fst w)) P1
      (gives_checks false eps 0 q _ (helicity_checks_true eps Hp q Hq Hq0)) H1) as (P2 & E2 & H2).
    rewrite E2. eexists. split; [reflexivity|]. exact (ready_mass false eps _ _ _ H2).
  - rewrite E'. reflexivity.
Qed.
Print Assumptions C66_helicity.
Example C66_helicity_ex :
  from (num:=RN false 1) (fun k => INR k) (helicity_test (num:=RN false 1) (fun _ => 7)) (fun _ => 8) = Ok (all_true (100 * 22)).
Proof. exact (C66_helicity 1 _ _ _ Rlt_0_1). Qed.

(** spin_spinors, with the usual behaviour of std::polar: all 84 checks hold in all 100
    passes, as long as every mass drawn is positive. *)
Theorem C66_spin :
  forall eps (s : stream (RN false eps)) g g', 0 < eps ->
    (forall k, (k < 100)%nat -> 0 < s (4 * k + 3)%nat) ->
    from s (spin_test (num:=RN false eps) g) g' = Ok (all_true (100 * 84)).
Proof.
  intros eps s g g' Hp Hs. assert (He : 0 <= eps) by lra.
  unfold from, spin_test. set (q0 := V4 _ _ _ _).
  assert (H0 : on_shell 10 q0).
  { unfold on_shell, minksq, q0. cbn [v_0 v_1 v_2 v_3]. unfold sqrt_int. cbn. unfold Q2R. cbn.
    rewrite Rinv_1, Rmult_1_r, sqrt_sqrt by lra. ring. }
  unfold sbind. destruct (new_ready false eps He g 10 q0 (s, particle_default g') H0) as (P & E & HR).
  change (@tZ (RN false eps) 10) with 10. rewrite E. cbn [fst].
  destruct (times_true (fun j (w : world (num:=RN false eps)) => forall k, fst w k = s (4 * j + k)%nat) 84
    (spin_body (num:=RN false eps)) 100 0 (s, P)) as (w' & E' & _).
  - intros k. reflexivity.
  - intros j w Hj HI. unfold spin_body, sbind. rewrite draw_eq.
    destruct (drawn_shell false eps (fst w)) as [Hq Hq0]. set (q := drawn false eps (fst w)) in *.
    assert (Hm : 0 < fst w 3%nat) by (rewrite HI; apply Hs; lia).
    set (m := fst w 3%nat) in *.
    unfold on_p1 at 1, set_mass, modify. cbn [fst snd].
    destruct (set_ready false eps He m q (w_m (Val m) (snd w)) eq_refl Hq) as (P1 & E1 & H1).
    unfold on_p1 at 1. cbn [fst snd]. rewrite E1.
    destruct (on_p1_gives false eps m q _ _ (shift false eps 4 (fst w)) P1
      (gives_checks false eps m q _ (spin_checks_true eps Hp m q Hm Hq Hq0)) H1) as (P2 & E2 & H2).
    rewrite E2. eexists. split; [reflexivity|].
    intros k. cbn [fst]. unfold shift. rewrite HI. f_equal. lia.
  - rewrite E'. reflexivity.
Qed.
Print Assumptions C66_spin.
Example C66_spin_ex :
  from (num:=RN false 1) (fun k => INR (S k)) (spin_test (num:=RN false 1) (fun _ => 7)) (fun _ => 8) = Ok (all_true (100 * 84)).
Proof. apply (C66_spin 1 _ _ _ Rlt_0_1). intros k _. apply lt_0_INR. lia. Qed.

(** The condition on the masses is needed: choose_random_momentum may deliver the mass 0
    (its range is [0,50)), and then the first spinor asked for throws and ends the test. *)
Theorem C66_spin_refuted :
  forall st eps, 0 <= eps -> exists s : stream (RN st eps),
    (forall k, 0 <= s k < 50) /\
    forall g g', from s (spin_test (num:=RN st eps) g) g' = Exn MassZero.
Proof.
  intros st eps He. set (s := (fun k : nat => if (k =? 3)%nat then 0 else 1) : stream (RN st eps)). exists s. split.
  { intros k. unfold s. destruct (k =? 3)%nat; lra. }
  intros g g'. unfold from, spin_test. set (q0 := V4 _ _ _ _).
  assert (H0 : on_shell 10 q0).
  { unfold on_shell, minksq, q0. cbn [v_0 v_1 v_2 v_3]. unfold sqrt_int. cbn. unfold Q2R. cbn.
    rewrite Rinv_1, Rmult_1_r, sqrt_sqrt by lra. ring. }
  unfold sbind. destruct (new_ready st eps He g 10 q0 (s, particle_default g') H0) as (P & E & HR).
  change (@tZ (RN st eps) 10) with 10. rewrite E. cbn [fst].
  apply times_stop; [discriminate|lia|]. unfold spin_body, sbind. rewrite draw_eq. cbn [fst snd].
  destruct (drawn_shell st eps s) as [Hq _]. set (q := drawn st eps s) in *.
  change (s 3%nat) with 0 in *.
  unfold on_p1 at 1, set_mass, modify. cbn [fst snd].
  destruct (set_ready st eps He 0 q (w_m (Val (num:=RN st eps) 0) P) eq_refl Hq) as (P1 & E1 & H1).
  unfold on_p1 at 1. cbn [fst snd]. rewrite E1.
  pose proof (ready_spinor2 st eps 0 q P1 RAngle (-1) true H1) as F. rewrite Reqb_refl in F. cbn [Z.eqb Pos.eqb negb andb] in F.
  unfold on_p1. cbn [fst snd]. unfold spin_checks. cbn [flat_map conj_checks app checks].
  unfold same_v, ap2, up, spinor1, sbind.
  destruct (spinor2 RAngle (-1) true P1) as [r P2]. cbn [fst] in F. rewrite F. reflexivity.
Qed.
Print Assumptions C66_spin_refuted.

(** By the letter of the standard helicity_spinors_test has undefined behaviour unless the
    first momentum drawn points along +z (see C37). *)
Theorem C66_polar_refuted :
  forall eps (s : stream (RN true eps)) g g', 0 < eps ->
    ~ (s 0%nat = 0 /\ s 1%nat = 0 /\ 0 <= s 2%nat) ->
    from s (helicity_test (num:=RN true eps) g) g' = UB NegativePolar.
Proof.
  intros eps s g g' Hp Hs. assert (He : 0 <= eps) by lra.
  unfold from, helicity_test. set (q0 := V4 _ _ _ _).
  assert (H0 : on_shell 0 q0).
  { unfold on_shell, minksq, q0. cbn [v_0 v_1 v_2 v_3]. unfold sqrt_int. cbn. unfold Q2R. cbn.
    rewrite Rinv_1, Rmult_1_r, sqrt_sqrt by lra. ring. }
  unfold sbind. destruct (new_ready true eps He g 0 q0 (s, particle_default g') H0) as (P & E & HR).
  change (@tZ (RN true eps) 0) with 0. rewrite E. cbn [fst].
  apply times_stop; [discriminate|lia|]. unfold helicity_body, sbind. rewrite draw0_eq. cbn [fst snd].
  destruct (drawn0_shell true eps s) as [Hq _].
  assert (Hz : ~ along_z (drawn0 true eps s)) by exact Hs.
  set (q := drawn0 true eps s) in *.
  destruct (set_ready true eps He 0 q P (ready_mass true eps _ _ _ HR) Hq) as (P1 & E1 & H1).
  unfold on_p1 at 1. cbn [fst snd]. rewrite E1.
  assert (G3 : gives true eps 0 q (gen (num:=RN true eps) LJ3lu) (rgen true eps 0 q LJ3lu)).
  { apply (gives_acc true eps 0 q (CGenerator LJ3lu) (VMat (num:=RN true eps))); try reflexivity.
    intros P' HP. unfold gen, sconst. cbn [fst]. rewrite (ready_generator _ _ _ _ _ _ HP). reflexivity. }
  assert (K : forall (l1 l2 : list (ST (particle (RN true eps)) bool)) x P', ready (num:=RN true eps) 0 q P' ->
    Forall (fun x => exists b, gives true eps 0 q x b) l1 ->
    (forall P', ready (num:=RN true eps) 0 q P' -> fst (x P') = UB NegativePolar) ->
    fst (checks (l1 ++ x :: l2) P') = UB NegativePolar).
  { induction l1 as [|y l1 IH]; intros l2 x P' HP HF Hx; cbn [app checks]; unfold sbind at 1.
    - specialize (Hx P' HP). destruct (x P') as [r P'']. cbn [fst] in Hx. rewrite Hx. reflexivity.
    - inversion HF as [|? ? (b & Hy) HF']; subst. destruct (Hy P' HP) as (P2 & E2 & H2). rewrite E2.
      unfold sbind. specialize (IH l2 x P2 H2 HF' Hx). destruct (checks (l1 ++ x :: l2) P2) as [r P3].
      cbn [fst] in IH. rewrite IH. reflexivity. }
  unfold on_p1. cbn [fst snd].
  match goal with |- fst (let (_, _) := checks ?l ?P' in _) = _ =>
    assert (A : fst (checks l P') = UB NegativePolar);
    [|destruct (checks l P'); cbn [fst] in *; exact A] end.
  unfold helicity_checks.
  match goal with |- fst (checks (?a0 :: ?a1 :: ?a2 :: ?a3 :: ?a4 :: ?a5 :: ?a6 :: ?a7 :: ?a8 :: ?a9 :: ?a10 :: ?x :: ?l2) _) = _ =>
    apply (K [a0; a1; a2; a3; a4; a5; a6; a7; a8; a9; a10] l2 x P1 H1) end.
  - unfold same_v, same_m, vconj, zero_v. repeat apply Forall_cons; [..|apply Forall_nil]; eexists;
      repeat first [exact G3 | apply gives_umat | apply gives_lmat | apply gives_0 | apply gives_ret
        | apply gives_ap2 | apply gives_smap].
  - intros P' HP. unfold same_v, ap2, sbind, gen, sconst.
    rewrite (C37_polar_domain_refuted eps 0 q P' LJPlu HP); [reflexivity| |exact Hz].
    apply ladder_is. reflexivity.
Qed.
Print Assumptions C66_polar_refuted.
Example C66_polar_ex :
  from (num:=RN true 1) (fun k => INR (S k)) (helicity_test (num:=RN true 1) (fun _ => 7)) (fun _ => 8) = UB NegativePolar.
Proof. apply (C66_polar_refuted 1 _ _ _ Rlt_0_1). cbn. lra. Qed.

(** tests/propagator.cpp: the three checks hold. *)
Theorem C66_denominator :
  forall st eps, 0 < eps -> denominator_test (num:=RN st eps) = all_true 3.
Proof.
  intros st eps Hp. unfold denominator_test. cbv zeta.
  rewrite !(small_diff st eps Hp); [reflexivity|..]; apply injective_projections; cbn; ring.
Qed.
Print Assumptions C66_denominator.

(** ** tests/cvector.cpp and tests/cmatrix.cpp *)
Section LinearTests.
  Variables (st : bool) (eps : R).
  Hypothesis Hp : 0 < eps.
  Notation num := (RN st eps).
  Notation stream := (stream num).

  Lemma range_ok : @tgeb num (@tZ num 50) (@tZ num (-50)) = true.
  Proof. change (@tgeb num) with Rgeb. change (@tZ num) with IZR. apply Rgeb_true. lra. Qed.
  Lemma range_ok0 : @tgeb num (@tZ num 50) (@tZ num 0) = true.
  Proof. change (@tgeb num) with Rgeb. change (@tZ num) with IZR. apply Rgeb_true. lra. Qed.
  Lemma rnd_c_eq (s : stream) : rnd_c (num:=num) s = (Ok ((s 0%nat, s 1%nat) : C), shift st eps 2 s).
  Proof. unfold rnd_c, choose_random_cdouble, choose_random_ldouble, sbind, sret. rewrite range_ok. reflexivity. Qed.
  Lemma rnd_t_eq (s : stream) : rnd_t (num:=num) s = (Ok (s 0%nat), shift st eps 1 s).
  Proof. unfold rnd_t, choose_random_ldouble. rewrite range_ok. reflexivity. Qed.
  Lemma rnd_p_eq (s : stream) : rnd_p (num:=num) s = (Ok (drawn st eps s), shift st eps 4 s).
  Proof.
    unfold rnd_p, smap, choose_random_momentum, choose_random_ldouble, sbind, sret. rewrite range_ok, range_ok0. reflexivity.
  Qed.
  Lemma cx_same (x y : C) : x = y -> cx_eqb (num:=num) x y = true.
  Proof.
    intros ->. unfold cx_eqb. change (@teqb num) with Reqb. rewrite !Reqb_refl. reflexivity.
  Qed.
  Lemma cm_same (x y : cmatrix num) : x = y -> cm_eqb x y = true.
  Proof. intros ->. destruct (C34_tolerant_equality_partial st eps (Rlt_le _ _ Hp)) as (_ & _ & _ & _ & R & _). apply R. Qed.
  Lemma cv_same (x : cvector num) : cv_eqb x x = true.
  Proof. destruct (C34_tolerant_equality_partial st eps (Rlt_le _ _ Hp)) as (R & _). apply R. Qed.
  Lemma small_same (x y : R) : x = y -> small (num:=num) (@tabs num (@tsub num x y)) = true.
  Proof.
    intros ->. change (@tabs num (@tsub num y y)) with (Rabs (y - y)). rewrite Rminus_diag_eq, Rabs_R0 by reflexivity.
    exact (small_zero st eps Hp).
  Qed.
  Lemma passes k (body : nat -> ST stream (list bool)) :
    (forall j s, exists s', body j s = (Ok (all_true k), s')) ->
    forall s, linear_test (num:=num) body s = Ok (all_true (100 * k)).
  Proof.
    intros H s. unfold linear_test.
    destruct (times_true (fun _ _ => True) k body 100 0 s I) as (w' & E & _).
    { intros j w _ _. destruct (H j w) as (s' & E). eauto. }
    rewrite E. reflexivity.
  Qed.
End LinearTests.

Lemma get_v0 {num : Num} (v : cvector num) : cv_get v 0 = Ok (cv0 v). Proof. reflexivity. Qed.
Lemma get_v1 {num : Num} (v : cvector num) : cv_get v 1 = Ok (cv1 v). Proof. reflexivity. Qed.
Lemma get_m00 {num : Num} (m : cmatrix num) : cm_get m 0 0 = Ok (m00 m). Proof. reflexivity. Qed.
Lemma get_m01 {num : Num} (m : cmatrix num) : cm_get m 0 1 = Ok (m01 m). Proof. reflexivity. Qed.
Lemma get_m10 {num : Num} (m : cmatrix num) : cm_get m 1 0 = Ok (m10 m). Proof. reflexivity. Qed.
Lemma get_m11 {num : Num} (m : cmatrix num) : cm_get m 1 1 = Ok (m11 m). Proof. reflexivity. Qed.
Ltac run_body := cbv zeta; repeat first [rewrite rnd_p_eq | rewrite rnd_c_eq | rewrite rnd_t_eq | progress (unfold sbind at 1)].

(** All streams: the conjugation and multiplication tests of cvector, and the
    determinant, addition, subtraction, multiplication and division tests of cmatrix. *)
Theorem C66_linear :
  forall st eps (s : stream (RN st eps)) (ints : nat -> Z), 0 < eps ->
    linear_test (num:=RN st eps) (vector_conjugate_body (num:=RN st eps)) s = Ok (all_true (100 * 2)) /\
    linear_test (num:=RN st eps) (vector_product_body (num:=RN st eps)) s = Ok (all_true (100 * 5)) /\
    linear_test (num:=RN st eps) (matrix_det_body (num:=RN st eps)) s = Ok (all_true (100 * 2)) /\
    linear_test (num:=RN st eps) (matrix_add_body (num:=RN st eps)) s = Ok (all_true (100 * 2)) /\
    linear_test (num:=RN st eps) (matrix_sub_body (num:=RN st eps)) s = Ok (all_true (100 * 2)) /\
    linear_test (num:=RN st eps) (matrix_mul_body (num:=RN st eps) ints) s = Ok (all_true (100 * 10)) /\
    linear_test (num:=RN st eps) (matrix_div_body (num:=RN st eps)) s = Ok (all_true (100 * 2)).
Proof.
  intros st eps s ints Hp. repeat split; apply passes; clear s; intros j s.
  - unfold vector_conjugate_body, entry_check, slift, sret. run_body. rewrite !get_v0, !get_v1.
    rewrite !cx_same by reflexivity. eexists. reflexivity.
  - unfold vector_product_body, sum_check, entry_check, slift, sret. run_body.
    rewrite !get_v0, !get_v1, !get_m00, !get_m01, !get_m10, !get_m11. cbn [sum_of obind].
    rewrite ?get_v0, ?get_v1. cbn [cv0 cv1 m00 m01 m10 m11 cm_mul_cv cv_mul_cm].
    rewrite !cx_same; [eexists; reflexivity|..]; try reflexivity;
      apply injective_projections; cbn; ring.
  - assert (D : forall (p : vec4 R) u, cm_det (cmatrix_of_mom (num:=RN st eps) p u)
        = Ok (subsq (num:=RN st eps) (@tmul (RN st eps) (v_0 p) (v_0 p)) p)).
    { intros p u. unfold cm_det. change (@tgtb (RN st eps)) with Rgtb. change (@tabs (RN st eps)) with Rabs.
      change (cm_tol (num:=RN st eps)) with (eps * 1000000).
      match goal with |- context [Rgtb (Rabs ?z) _] => replace z with 0 by (destruct u; cbn; ring) end.
      rewrite (proj2 (Rgtb_false _ _)) by (rewrite Rabs_R0; lra).
      f_equal. unfold subsq. destruct u; cbn; ring. }
    unfold matrix_det_body, slift, sret. run_body. rewrite !D.
    rewrite !(small_same st eps Hp) by reflexivity. eexists. reflexivity.
  - unfold matrix_add_body, matrix_sum_body, sret. run_body.
    rewrite !(cm_same st eps Hp); [eexists; reflexivity|..];
      apply CM_ext; apply injective_projections; cbn; ring.
  - unfold matrix_sub_body, matrix_sum_body, sret. run_body.
    rewrite !(cm_same st eps Hp); [eexists; reflexivity|..];
      apply CM_ext; apply injective_projections; cbn; ring.
  - unfold matrix_mul_body, sret. run_body. unfold entries, cm_scalei.
    rewrite !(cm_same st eps Hp); [eexists; reflexivity|..]; try reflexivity;
      apply CM_ext; apply injective_projections; unfold subsq; cbn; ring.
  - unfold matrix_div_body, sret. run_body. unfold entries.
    rewrite !(cm_same st eps Hp) by reflexivity. eexists. reflexivity.
Qed.
Print Assumptions C66_linear.

(** The two tests of the constructors expect two random values to differ.  They pass if in
    every pass the two values differ by more than the tolerance of == ... *)
Definition pass_vectors {st eps} (s : stream (RN st eps)) (k : nat) : cvector (RN st eps) * cvector (RN st eps) :=
  let z i := ((s (8 * k + i)%nat, s (8 * k + i + 1)%nat) : C) in
  (@CV (RN st eps) (z 0%nat) (z 2%nat), @CV (RN st eps) (z 4%nat) (z 6%nat)).
Definition pass_matrices {st eps} (s : stream (RN st eps)) (k : nat) : cmatrix (RN st eps) * cmatrix (RN st eps) :=
  let p i := let a := s (8 * k + i)%nat in let b := s (8 * k + i + 1)%nat in
             let c := s (8 * k + i + 2)%nat in let m := s (8 * k + i + 3)%nat in
             V4 (sqrt (m * m + (a * a + b * b + c * c))) a b c in
  (cmatrix_of_mom (num:=RN st eps) (p 0%nat) true, cmatrix_of_mom (num:=RN st eps) (p 4%nat) true).
Theorem C66_linear_constructors_partial :
  forall st eps (s : stream (RN st eps)), 0 < eps ->
    ((forall k, (k < 100)%nat -> ~ close_vec (eps * 10000000) (fst (pass_vectors s k)) (snd (pass_vectors s k))) ->
     linear_test (num:=RN st eps) (vector_constructor_body (num:=RN st eps)) s = Ok (all_true (100 * 6))) /\
    ((forall k, (k < 100)%nat -> ~ close_mat (eps * 1000000) (fst (pass_matrices s k)) (snd (pass_matrices s k))) ->
     linear_test (num:=RN st eps) (matrix_constructor_body (num:=RN st eps)) s = Ok (all_true (100 * 4))).
Proof.
  intros st eps s Hp.
  destruct (C34_tolerant_equality_partial st eps (Rlt_le _ _ Hp)) as (Rv & _ & _ & Cv & Rm & _ & _ & Cm).
  split; intros Hs; unfold linear_test.
  - destruct (times_true (fun j (w : stream (RN st eps)) => forall k, w k = s (8 * j + k)%nat) 6
      (vector_constructor_body (num:=RN st eps)) 100 0 s) as (w' & E & _); [reflexivity| |rewrite E; reflexivity].
    intros j w Hj HI. unfold vector_constructor_body, entry_check, slift, sret. run_body.
    rewrite !get_v0, !get_v1, !cx_same by reflexivity. run_body.
    unfold cv_neqb. rewrite Rv.
    match goal with |- context [cv_eqb ?a ?b] => replace (cv_eqb a b) with false end.
    + eexists. split; [reflexivity|]. intros k. unfold shift. rewrite HI. f_equal. lia.
    + symmetry. apply not_true_is_false. rewrite Cv. specialize (Hs j ltac:(lia)).
      unfold pass_vectors in Hs. cbn [fst snd] in Hs. unfold shift. rewrite !HI.
      intros F. apply Hs. clear Hs. revert F.
      rewrite !Nat.add_0_r. rewrite <- !Nat.add_assoc. cbn [Nat.add]. exact (fun F => F).
  - destruct (times_true (fun j (w : stream (RN st eps)) => forall k, w k = s (8 * j + k)%nat) 4
      (matrix_constructor_body (num:=RN st eps)) 100 0 s) as (w' & E & _); [reflexivity| |rewrite E; reflexivity].
    intros j w Hj HI. unfold matrix_constructor_body, sret. run_body.
    unfold cm_neqb. rewrite Rm.
    match goal with |- context [cm_eqb ?a ?b] => replace (cm_eqb a b) with false end.
    + eexists. split; [reflexivity|]. intros k. unfold shift. rewrite HI. f_equal. lia.
    + symmetry. apply not_true_is_false. rewrite Cm. specialize (Hs j ltac:(lia)).
      unfold pass_matrices in Hs. cbn [fst snd] in Hs. unfold drawn, shift. rewrite !HI. rewrite !Rplus_0_l.
      intros F. apply Hs. clear Hs. revert F.
      rewrite !Nat.add_0_r. rewrite <- !Nat.add_assoc. cbn [Nat.add]. exact (fun F => F).
Qed.
Print Assumptions C66_linear_constructors_partial.
(** the hypotheses can be met: the draws alternate between two values *)
Example C66_linear_constructors_ex :
  let s : stream (RN true 1) := fun k => if (k mod 8 <? 4)%nat then 0 else 20000000 in
  linear_test (num:=RN true 1) (vector_constructor_body (num:=RN true 1)) s = Ok (all_true (100 * 6)) /\
  linear_test (num:=RN true 1) (matrix_constructor_body (num:=RN true 1)) s = Ok (all_true (100 * 4)).
Proof.
  intros s. destruct (C66_linear_constructors_partial true 1 s Rlt_0_1) as [A B].
  assert (E : forall k i, (i < 8)%nat -> s (8 * k + i)%nat = if (i <? 4)%nat then 0 else 20000000).
  { intros k i Hi. unfold s. replace ((8 * k + i) mod 8)%nat with i; [reflexivity|].
    rewrite Nat.add_comm, Nat.mul_comm, Nat.mod_add by lia. symmetry. now apply Nat.mod_small. }
  split.
  - apply A. intros k _ [F _]. unfold pass_vectors in F. cbn [fst snd cv0] in F.
    rewrite <- !Nat.add_assoc in F. cbn [Nat.add] in F. rewrite !E in F by lia. cbn [Nat.ltb Nat.leb] in F.
    pose proof (Rle_trans _ _ _ (Rmax_l _ _) (Rmax_Cmod ((0, 0) - (20000000, 20000000))%C)) as G. cbn in G.
    rewrite Rabs_left in G by lra. change (T (RN true 1)) with R in *. lra.
  - apply B. intros k _ (_ & F & _). unfold pass_matrices in F. cbn [fst snd m01] in F.
    rewrite <- !Nat.add_assoc in F. cbn [Nat.add cmatrix_of_mom m01 v_1 v_2 cmk RN topp] in F.
    rewrite !E in F by lia. cbn [Nat.ltb Nat.leb] in F.
    pose proof (Rle_trans _ _ _ (Rmax_l _ _) (Rmax_Cmod (Cminus (Ropp 0, 0) (Ropp 20000000, 20000000)))) as G. cbn in G.
    rewrite Rabs_right in G by lra. change (T (RN true 1)) with R in *. lra.
Qed.

(** ... and fail if they do not: nothing keeps the generator from delivering the same
    value twice (tests/cmatrix.cpp 43 admits the "very small chance"). *)
Theorem C66_linear_constructors_refuted :
  forall st eps, 0 < eps -> exists s : stream (RN st eps),
    (forall k, -50 <= s k < 50) /\
    (exists bs, linear_test (num:=RN st eps) (vector_constructor_body (num:=RN st eps)) s = Ok bs /\ In false bs) /\
    (exists bs, linear_test (num:=RN st eps) (matrix_constructor_body (num:=RN st eps)) s = Ok bs /\ In false bs).
Proof.
  intros st eps Hp.
  assert (K : forall (c : R) (body : nat -> ST (stream (RN st eps)) (list bool)) bs,
    (forall j (w : stream (RN st eps)), (forall k, w k = c) -> exists w', body j w = (Ok bs, w') /\ forall k, w' k = c) ->
    forall n j (w : stream (RN st eps)), (forall k, w k = c) ->
      exists l, fst (times (S n) body j w) = Ok (bs ++ l)).
  { intros c body bs Hb. induction n as [|n IH]; intros j w Hw; destruct (Hb j w Hw) as (w' & E & Hw').
    - exists []. cbn [times]. unfold sbind, sret. rewrite E. reflexivity.
    - destruct (IH (j + 1)%nat w' Hw') as (l & El). exists (bs ++ l).
      change (times (S (S n)) body j w) with
        ((do a <- body j; do b <- times (S n) body (j + 1); sret (a ++ b))%st w).
      unfold sbind, sret. rewrite E. destruct (times (S n) body (j + 1) w') as [r w'']. cbn [fst] in El. rewrite El.
      reflexivity. }
  destruct (C34_tolerant_equality_partial st eps (Rlt_le _ _ Hp)) as (Rv & _ & _ & _ & Rm & _).
  exists (fun _ => 0). split; [intros k; lra|]. unfold linear_test. split.
  - destruct (K 0 (vector_constructor_body (num:=RN st eps)) [true; true; true; false; true; false]) with (n := 99%nat) (j := 0%nat) (w := (fun _ : nat => 0) : stream (RN st eps)) as (l & El).
    + intros j w Hw. unfold vector_constructor_body, entry_check, slift, sret. run_body.
      rewrite !get_v0, !get_v1, !cx_same by reflexivity. run_body.
      unfold cv_neqb. unfold shift. rewrite !Hw, !Rv. eexists. split; [reflexivity|]. intros k. apply Hw.
    + reflexivity.
    + eexists. split; [exact El|]. apply in_or_app. left. cbn. auto 6.
  - destruct (K 0 (matrix_constructor_body (num:=RN st eps)) [true; false; true; false]) with (n := 99%nat) (j := 0%nat) (w := (fun _ : nat => 0) : stream (RN st eps)) as (l & El).
    + intros j w Hw. unfold matrix_constructor_body, sret. run_body.
      unfold cm_neqb. unfold drawn, shift. rewrite !Hw, !Rm. eexists. split; [reflexivity|]. intros k. apply Hw.
    + reflexivity.
    + eexists. split; [exact El|]. apply in_or_app. left. cbn. auto 6.
Qed.
Print Assumptions C66_linear_constructors_refuted.
