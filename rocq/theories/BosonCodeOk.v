(** * Outer bosons: the evaluation of BosonCode.v is right

    Used in proofs only. *)
From Coq Require Import Reals QArith Qreals List Bool String Lra Lia.
From Coquelicot Require Import Complex.
From Verif Require Import Base Scalar RealNum Linear Integers Particle Sproduct Propagator Process
  ParticleProofs SpecSpinor ParticleReal SpinorReal Ready ParticleClaims SpecSproduct SpecChain ChainReal Lorentz
  WorldProofs Lang LangFrame Pure PureProofs ReadOnly Sym SymEq SMNames SMRun SMTwins SMMasses SMAll SMChecks
  SMAmp2 SpinColour Poly Covariant CovReal PropsWidth Feynman FeynmanAlg FeynmanFlat FeynmanTable FeynmanMatch BosonSpec Tower BosonCode.
Import ListNotations.
Close Scope Q_scope.
Close Scope R_scope.
Open Scope nat_scope.

Section EvalOk.
  Variables (st : bool) (eps : R).
  Notation num := (RN st eps).
  Variable rho : lv -> C.
  Notation W := (weval rho).
  Variable M : tow -> tow -> tow.
  Hypothesis HMu : forall p q, W (M p q) = Cmult (W p) (W q).
  Variable zero : tow -> bool.
  Hypothesis HZ : forall p, zero p = true -> W p = RtoC 0.
  Variable invs : list (tow * tow).
  Hypothesis HI : forall d, In d invs -> Cmult (W (fst d)) (W (snd d)) = RtoC 1.
  Variable roots : list tow.
  Hypothesis HRt : forall r, In r roots -> exists y : R, (0 <= y)%R /\ W r = RtoC y.
  Lemma same_ok p q : same zero p q = true -> W p = W q.
  Proof. unfold same. intros H. apply HZ in H. rewrite wsub_ok in H. transitivity (W p - W q + W q)%C; [ring|rewrite H; ring]. Qed.
  Definition good (x : R) (v : vi) : Prop := (forall p, fst v = Some p -> W p = RtoC x) /\ (forall p, snd v = Some p -> W p = RtoC (/ x)).
  Lemma plain_ok x p : (forall p', p = Some p' -> W p' = RtoC x) -> good x (plain zero invs p).
  Proof.
    intros H. split; cbn [plain fst snd]; [exact H|]. intros q Hq. unfold inverse in Hq. destruct p as [p|]; [|discriminate Hq].
    destruct (find (fun d => same zero p (fst d)) invs) as [d|] eqn:E; [|discriminate Hq]. injection Hq as <-.
    apply find_some in E as [E1 E2]. apply same_ok in E2. rewrite (H p eq_refl) in E2. pose proof (HI d E1) as K. rewrite <- E2 in K.
    assert (X : x <> 0%R) by (intros ->; assert (Q : RtoC 0 = RtoC 1) by (rewrite <- K; ring); apply RtoC_inj in Q; lra).
    rewrite RtoC_invR. transitivity (Cmult (Cinv (RtoC x)) (Cmult (RtoC x) (W (snd d)))); [|rewrite K; ring].
    field. intros Q. apply RtoC_inj in Q. exact (X Q).
  Qed.
  Lemma both_some f p q r : both f p q = Some r -> exists p' q', p = Some p' /\ q = Some q' /\ r = f p' q'.
  Proof. destruct p as [p|], q as [q|]; try discriminate. intros [= <-]. eauto. Qed.
  Lemma arith_ok a x y v w : good x v -> good y w -> good (aopR a x y) (arith M zero invs a v w).
  Proof.
    intros [V1 V2] [W1 W2]. destruct a; cbn [arith aopR].
    - apply plain_ok. intros p H. apply both_some in H as (p1 & q1 & E1 & E2 & ->). rewrite wadd_ok, (V1 _ E1), (W1 _ E2), RtoC_plus. reflexivity.
    - apply plain_ok. intros p H. apply both_some in H as (p1 & q1 & E1 & E2 & ->). rewrite wsub_ok, (V1 _ E1), (W1 _ E2). unfold Rminus. rewrite RtoC_plus, RtoC_opp. reflexivity.
    - split; cbn [fst snd]; intros p H; apply both_some in H as (p1 & q1 & E1 & E2 & ->); rewrite HMu.
      + rewrite (V1 _ E1), (W1 _ E2), RtoC_mult. reflexivity.
      + rewrite (V2 _ E1), (W2 _ E2), Rinv_mult, RtoC_mult. reflexivity.
    - split; cbn [fst snd]; intros p H; apply both_some in H as (p1 & q1 & E1 & E2 & ->); rewrite HMu; unfold Rdiv.
      + rewrite (V1 _ E1), (W2 _ E2), RtoC_mult. reflexivity.
      + rewrite (V2 _ E1), (W1 _ E2), Rinv_mult, Rinv_inv, RtoC_mult. reflexivity.
  Qed.
  Lemma oneg1_some p q : oneg1 p = Some q -> exists p', p = Some p' /\ q = wneg p'.
  Proof. destruct p; intros [= <-]; eauto. Qed.
  Lemma negv_ok x v : good x v -> good (- x) (negv v).
  Proof.
    intros [V1 V2]. split; cbn [negv fst snd]; intros p H; apply oneg1_some in H as (p' & E & ->); rewrite wneg_ok.
    - rewrite (V1 _ E), RtoC_opp. reflexivity.
    - rewrite (V2 _ E), Rinv_opp, RtoC_opp. reflexivity.
  Qed.
  Lemma root_ok x v : good x v -> good (sqrt x) (plain zero invs (root M zero roots (fst v))).
  Proof.
    intros [V1 _]. apply plain_ok. intros r H. unfold root in H. destruct (fst v) as [p|] eqn:E; [|discriminate H].
    apply find_some in H as [H1 H2]. apply same_ok in H2. rewrite (V1 _ eq_refl), HMu in H2. destruct (HRt r H1) as (y & Y1 & Y2).
    rewrite Y2, <- RtoC_mult in H2. apply RtoC_inj in H2. rewrite Y2, H2, sqrt_square by exact Y1. reflexivity.
  Qed.
  Lemma lit_ok z : good (IZR z) (plain zero invs (Some (WL z))).
  Proof. apply plain_ok. intros p [= <-]. reflexivity. Qed.
  Lemma evD_ok x : good (tdenD x) (evD M zero invs roots x).
  Proof.
    induction x as [[n d]|a x IHx y IHy|x IHx|x IHx]; cbn [evD tdenD].
    - assert (K : forall d, good (Q2R (n # d)) (arith M zero invs Div (plain zero invs (Some (WL n))) (plain zero invs (Some (WL (Zpos d)))))).
      { intros d'. exact (arith_ok Div _ _ _ _ (lit_ok n) (lit_ok (Zpos d'))). }
      destruct d; [apply K|apply K|apply lit_ok].
    - apply arith_ok; assumption.
    - apply negv_ok; assumption.
    - apply root_ok; assumption.
  Qed.
  Variable rT : tatom -> R.
  Variable rC : id -> list Z -> C.
  Notation dT := (denT (num:=num) rT rC : sT -> R).
  Notation dC := (denC (num:=num) rT rC : sC -> C).
  Variable atom : tatom -> vi.
  Hypothesis HAt : forall a, good (rT a) (atom a).
  Notation eT := (evT M zero invs roots atom).
  Lemma none_ok x : good x (None, None).
  Proof. split; intros p H; discriminate H. Qed.
  Lemma evT_ok x : good (dT x) (eT x).
  Proof.
    induction x as [z|d|a x IHx y IHy|x IHx|x IHx|x IHx|k| | |]; cbn [evT]; try apply none_ok.
    - apply lit_ok.
    - change (dT (TofD d)) with (denD (num:=num) d : R). rewrite tdenD_ok. apply evD_ok.
    - replace (dT (TOp a x y)) with (aopR a (dT x) (dT y)) by (destruct a; reflexivity). apply arith_ok; assumption.
    - apply negv_ok. exact IHx.
    - apply root_ok. exact IHx.
    - exact (arith_ok Mul _ _ _ _ IHx IHx).
    - apply HAt.
  Qed.

  (** ** Spinor products *)
  Variable q : nat -> vec4 R.
  Variable pat : nat -> bool.
  Hypothesis HM : forall p mu, p < 4 -> rT (AMom p mu) = comp (num:=num) (q p) mu.
  Hypothesis HP : forall p, p < 4 -> pat p = Reqb (rT (AMass p)) 0.
  Hypothesis HA : forall p, p < 4 -> fst (particle_new (num:=num) (fun _ => 0%R) (q p) (rT (AMass p))) = Ok tt.
  Variable leg : nat -> kleg tow.
  Hypothesis HL : forall k, k < 4 -> W (k_x (leg k)) = RtoC (rtp (q k)) /\ W (k_y (leg k)) = RtoC (rtm (q k)) /\
    W (k_c (leg k)) = RtoC (hc (q k)) /\ W (k_s (leg k)) = RtoC (hsx (q k)) /\ hsy (q k) = 0%R.
  Variable mats : nat -> vec tow.
  Hypothesis HV : forall k, k < 4 -> W (v_p (mats k)) = RtoC (v_0 (q k) + v_3 (q k)) /\ W (v_m (mats k)) = RtoC (v_0 (q k) - v_3 (q k)) /\
    W (v_t (mats k)) = RtoC (v_1 (q k)) /\ W (v_b (mats k)) = RtoC (v_1 (q k)) /\ v_2 (q k) = 0%R.
  Definition W2 (v : tw2) : cvector num := CV (num:=num) (W (fst v)) (W (snd v)).
  Lemma rangle_ok k a : k < 4 -> spv st eps (q k) RAngle (spin_of a) = W2 (rangle M leg k a).
  Proof.
    intros Hk. destruct (HL k Hk) as (Lx & Ly & Lc & Ls & L0).
    destruct a as [[]|]; unfold rangle, W2; cbv zeta; cbn [fst snd]; rewrite ?wneg_ok, !HMu, ?Lx, ?Ly, Lc, Ls, <- !RtoC_mult, <- ?RtoC_opp;
      unfold spv, spin_of, kind_of, rspinor; cbn [Z.eqb Pos.eqb]; apply CV_ext; apply C_ext; unfold RtoC; cbn [cv0 cv1 fst snd]; rewrite ?L0; match goal with |- @eq _ ?x ?y => change (@eq R x y) end; ring.
  Qed.
  Lemma lsquare_ok k a : k < 4 -> spv st eps (q k) LSquare (spin_of a) = W2 (lsquare M leg k a).
  Proof.
    intros Hk. destruct (HL k Hk) as (Lx & Ly & Lc & Ls & L0).
    destruct a as [[]|]; unfold lsquare, W2; cbv zeta; cbn [fst snd]; rewrite ?wneg_ok, !HMu, ?Lx, ?Ly, Lc, Ls, <- !RtoC_mult, <- ?RtoC_opp;
      unfold spv, spin_of, kind_of, rspinor; cbn [Z.eqb Pos.eqb]; apply CV_ext; apply C_ext; unfold RtoC; cbn [cv0 cv1 fst snd]; rewrite ?L0; match goal with |- @eq _ ?x ?y => change (@eq R x y) end; ring.
  Qed.
  Lemma jP_ok v : Jv st eps (W2 v) = W2 (jP v).
  Proof. unfold jP, W2, Jv. cbn. rewrite wneg_ok. reflexivity. Qed.
  Lemma actP_ok lower k v : k < 4 -> cm_mul_cv (cmatrix_of_mom (num:=num) (q k) (negb lower)) (W2 v) = W2 (actP M mats lower k v).
  Proof.
    intros Hk. destruct (HV k Hk) as (P1 & P2 & P3 & P4 & P5). unfold actP, W2. cbv zeta.
    destruct lower; cbn [fst snd negb]; rewrite ?wadd_ok, ?wsub_ok, !HMu, P1, P2, P3, P4; generalize (W (fst v)) (W (snd v)); intros [a a'] [b b'];
      to_reals; rewrite P5; cbn [fst snd]; ring.
  Qed.
  Lemma apP_ok ks : forall lower v, (forall k, In k ks -> k < 4) -> apm st eps (rmats st eps lower (map q ks)) (W2 v) = W2 (apP M mats lower ks v).
  Proof.
    induction ks as [|k ks IH]; intros lower v H; [reflexivity|]. cbn [map rmats apP]. rewrite apm_cons, IH by (intros; apply H; right; assumption).
    apply actP_ok. apply H. left. reflexivity.
  Qed.
  Lemma zchP_ok angle a l ks b r : l < 4 -> r < 4 -> (forall k, In k ks -> k < 4) ->
    leafc st eps q angle a l ks b r = W (zchP M leg mats angle a l ks b r).
  Proof.
    intros H1 H2 H3. unfold leafc, zch, ends_of, zchP. cbn [fst snd]. rewrite map_length. cbv zeta.
    rewrite !rangle_ok, !lsquare_ok by assumption. rewrite !jP_ok.
    replace (if Bool.eqb angle (Nat.even (length ks)) then W2 (rangle M leg r b) else W2 (jP (lsquare M leg r b)))
      with (W2 (if Bool.eqb angle (Nat.even (length ks)) then rangle M leg r b else jP (lsquare M leg r b))) by (destruct (Bool.eqb _ _); reflexivity).
    rewrite apP_ok by exact H3.
    replace (if angle then W2 (jP (rangle M leg l a)) else W2 (lsquare M leg l a)) with (W2 (if angle then jP (rangle M leg l a) else lsquare M leg l a)) by (destruct angle; reflexivity).
    rewrite wadd_ok, !HMu. reflexivity.
  Qed.
  Lemma legs_lt ds : forall l, legs_in ds = Some l -> forall k, In k l -> k < 4.
  Proof.
    induction ds as [|d ds IH]; cbn [legs_in]; intros l H k Hk; [injection H as <-; contradiction|].
    destruct (leg_of d) as [p|] eqn:E; [|discriminate H]. destruct (legs_in ds) as [l'|]; [|discriminate H]. injection H as <-.
    destruct Hk as [<-|Hk]; [exact (leg_of_lt _ _ E)|exact (IH l' eq_refl k Hk)].
  Qed.

  (** ** Amplitudes *)
  Variable ps : list id.
  Variable slot : id -> nat -> option tow.
  Hypothesis HS : forall r k p, slot r k = Some p -> W p = Cinv (dC (den_in r k)).
  Notation eC := (evC M zero invs roots atom leg mats pat ps slot).
  Lemma over_ok y p : over M zero invs roots atom ps slot y = Some p -> W p = Cinv (dC y).
  Proof.
    unfold over. destruct (denom ps y) as [[t [r k]]|] eqn:E; [|discriminate]. intros H. apply both_some in H as (p1 & q1 & E1 & E2 & ->).
    rewrite HMu, (proj2 (evT_ok t) _ E1), (HS _ _ _ E2), (denom_ok st eps rT rC ps y t (r, k) E), RtoC_invR. unfold dprod. cbn [fold_right fst snd]. ring.
  Qed.
  Lemma evC_ok x : forall p, eC x = Some p -> W p = dC x.
  Proof.
    induction x as [x y|a x IHx y IHy|x IHx|x IHx|a x IHx y|a x y IHy|angle sL dL ds sR dR| | | |]; intros p H; cbn [evC] in H; try discriminate H.
    - destruct (fst (eT y)) as [z|] eqn:E; [|discriminate H]. destruct (zero z) eqn:E0; [|discriminate H]. apply HZ in E0.
      rewrite (proj1 (evT_ok y) _ E) in E0. apply RtoC_inj in E0. rewrite (proj1 (evT_ok x) _ H).
      change (dC (CMk x y)) with (dT x, dT y). rewrite E0. reflexivity.
    - destruct a; apply both_some in H as (p1 & q1 & E1 & E2 & ->).
      + rewrite wadd_ok, (IHx _ E1), (IHy _ E2). reflexivity.
      + rewrite wsub_ok, (IHx _ E1), (IHy _ E2). reflexivity.
      + rewrite HMu, (IHx _ E1), (IHy _ E2). reflexivity.
      + rewrite HMu, (IHx _ E1), (over_ok _ _ E2). reflexivity.
    - apply oneg1_some in H as (p' & E & ->). rewrite wneg_ok, (IHx _ E). reflexivity.
    - destruct a; apply both_some in H as (p1 & q1 & E1 & E2 & ->).
      + rewrite wadd_ok, (IHx _ E1), (proj1 (evT_ok y) _ E2). reflexivity.
      + rewrite wsub_ok, (IHx _ E1), (proj1 (evT_ok y) _ E2). reflexivity.
      + rewrite HMu, (IHx _ E1), (proj1 (evT_ok y) _ E2). reflexivity.
      + rewrite HMu, (IHx _ E1), (proj2 (evT_ok y) _ E2), RtoC_invR. reflexivity.
    - destruct a; apply both_some in H as (p1 & q1 & E1 & E2 & ->).
      + rewrite wadd_ok, (proj1 (evT_ok x) _ E1), (IHy _ E2). reflexivity.
      + rewrite wsub_ok, (proj1 (evT_ok x) _ E1), (IHy _ E2). reflexivity.
      + rewrite HMu, (proj1 (evT_ok x) _ E1), (IHy _ E2). reflexivity.
      + rewrite HMu, (proj1 (evT_ok x) _ E1), (over_ok _ _ E2). reflexivity.
    - destruct (lab sL) as [a|] eqn:Ea; [|discriminate H]. destruct (leg_of dL) as [L|] eqn:EL; [|discriminate H].
      destruct (legs_in ds) as [l|] eqn:El; [|discriminate H]. destruct (lab sR) as [b|] eqn:Eb; [|discriminate H].
      destruct (leg_of dR) as [R|] eqn:ER; [|discriminate H]. destruct (suits pat a L) eqn:E1; [|discriminate H].
      destruct (suits pat b R) eqn:E2; [|discriminate H]. injection H as <-.
      pose proof (ev_den st eps rT rC q pat HM HP HA [] (fun _ _ _ _ _ _ => []) (CProd angle sL dL ds sR dR)) as K.
      cbn [norm ev] in K. rewrite Ea, EL, El, Eb, ER, E1, E2 in K. rewrite <- (K _ eq_refl).
      symmetry. apply zchP_ok; [exact (leg_of_lt _ _ EL)|exact (leg_of_lt _ _ ER)|exact (legs_lt _ _ El)].
  Qed.
End EvalOk.
