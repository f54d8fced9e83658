(** * Lorentz transformations of spinors over the exact reals

    A complex matrix of determinant 1 acts on momenta through their matrices and on the two
    kinds of spinors; products are invariant, and the spinors of the transformed momentum
    are those of the momentum transformed, up to a rotation of the spin (massive) or a phase
    (massless). *)
From Coq Require Import Reals Lra Nsatz.
From Coquelicot Require Import Complex.
From Verif Require Import Base Scalar Linear Particle ParticleProofs RealNum SpecSpinor ParticleReal
  SpinorReal Ready ParticleClaims SpecSproduct SpecChain ChainReal Utilities UtilReal.
Open Scope R_scope.

Section Lorentz.
  Variables (st : bool) (eps : R).
  Notation num := (RN st eps).
  Notation rmom := (vec4 R).
  Notation Jv := (Jv st eps).
  Notation adj := (adj st eps).
  Notation tr_cm := (tr_cm st eps).
  Notation conj_cm := (conj_cm st eps).
  Notation vec := (cvector num).
  Notation mat := (cmatrix num).
  Notation momm q u := (cmatrix_of_mom (num:=num) q u).
  Notation apm := (apm st eps).
  Notation rmats := (rmats st eps).
  Notation vadd := (vadd st eps).
  Notation scale := (cv_scale (num:=num)).
  Notation spv := (spv st eps).

  Definition detm (L : mat) : C := Cminus (Cmult (m00 L) (m11 L)) (Cmult (m01 L) (m10 L)).
  Definition dag (L : mat) : mat := tr_cm (conj_cm L).
  (** q' is q transformed by L *)
  Definition moved (L : mat) (q q' : rmom) : Prop :=
    momm q' false = cm_mul L (cm_mul (momm q false) (dag L)).

  (** ** Invariance of products *)
  Lemma scale_1 (x : vec) : scale (RtoC 1) x = x.
  Proof. to_reals; ring. Qed.
  Lemma dag_inv L (x : vec) : cm_mul_cv (dag L) (cm_mul_cv (dag (adj L)) x) = scale (Cconj (detm L)) x.
  Proof. unfold detm, dag. to_reals; ring. Qed.
  Lemma adj_inv L (x : vec) : cm_mul_cv (adj L) (cm_mul_cv L x) = scale (detm L) x.
  Proof. unfold detm. to_reals; ring. Qed.
  Lemma adj_mul (A B : mat) : adj (cm_mul A B) = cm_mul (adj B) (adj A).
  Proof. to_reals; ring. Qed.
  Lemma adj_dag L : adj (dag L) = dag (adj L).
  Proof. unfold dag. to_reals; ring. Qed.
  Variable L : mat.
  Hypothesis HL : detm L = RtoC 1.
  Lemma conj_1 : Cconj (RtoC 1) = RtoC 1.
  Proof. to_reals; ring. Qed.
  Lemma move_low q q' (x : vec) : moved L q q' ->
    cm_mul_cv (momm q' false) (cm_mul_cv (dag (adj L)) x) = cm_mul_cv L (cm_mul_cv (momm q false) x).
  Proof. intros ->. rewrite !mm_v, dag_inv, HL, conj_1, scale_1. reflexivity. Qed.
  Lemma move_up q q' (x : vec) : moved L q q' ->
    cm_mul_cv (momm q' true) (cm_mul_cv L x) = cm_mul_cv (dag (adj L)) (cm_mul_cv (momm q true) x).
  Proof.
    intros H. rewrite (umat_adj st eps q'), (umat_adj st eps q), H, !adj_mul, adj_dag, !mm_v, adj_inv, HL, scale_1. reflexivity.
  Qed.
  (** how the two kinds of right spinors transform *)
  Definition tr (angle : bool) : mat := if angle then L else dag (adj L).
  Lemma apm_move : forall qs qs', Forall2 (moved L) qs qs' -> forall lower (x : vec),
    apm (rmats lower qs') (cm_mul_cv (tr (Bool.eqb lower (Nat.even (length qs)))) x) =
    cm_mul_cv (tr lower) (apm (rmats lower qs) x).
  Proof.
    induction 1 as [|q q' qs qs' H _ IH]; intros lower x.
    - destruct lower; reflexivity.
    - cbn [rmats length]. rewrite even_S, !apm_cons.
      replace (Bool.eqb lower (negb (Nat.even (length qs)))) with (Bool.eqb (negb lower) (Nat.even (length qs)))
        by (destruct lower, (Nat.even (length qs)); reflexivity).
      rewrite IH. destruct lower; cbn [negb tr]; [apply move_low|apply move_up]; exact H.
  Qed.
  Lemma J_det (a x : vec) : cv_dot (Jv (cm_mul_cv L a)) (cm_mul_cv L x) = cv_dot (Jv a) x.
  Proof.
    assert (K : cv_dot (Jv (cm_mul_cv L a)) (cm_mul_cv L x) = Cmult (detm L) (cv_dot (Jv a) x)) by (unfold detm; to_reals; ring).
    rewrite K, HL. apply Cmult_1_l.
  Qed.
  Lemma square_det (a x : vec) : cv_dot (cm_mul_cv (conj_cm L) a) (cm_mul_cv (dag (adj L)) x) = cv_dot a x.
  Proof.
    assert (K : cv_dot (cm_mul_cv (conj_cm L) a) (cm_mul_cv (dag (adj L)) x) = Cmult (Cconj (detm L)) (cv_dot a x)) by (unfold detm, dag; to_reals; ring).
    rewrite K, HL, conj_1. apply Cmult_1_l.
  Qed.
  Lemma J_conj (a : vec) : Jv (cm_mul_cv (conj_cm L) a) = cm_mul_cv (dag (adj L)) (Jv a).
  Proof. unfold dag. to_reals; ring. Qed.

  (** ** The ends of a chain: |i> and [i| *)
  Definition ends : Type := (vec * vec)%type.
  Definition zch (angle : bool) (eL : ends) (qs : list rmom) (eR : ends) : C :=
    cv_dot (if angle then Jv (fst eL) else snd eL)
      (apm (rmats angle qs) (if Bool.eqb angle (Nat.even (length qs)) then fst eR else Jv (snd eR))).
  Definition ends_of (q : rmom) (s : option (Z * bool)) : ends := (spv q RAngle s, spv q LSquare s).
  Lemma rchain_zch angle sL qL qs sR qR :
    rchain st eps angle sL qL qs sR qR = zch angle (ends_of qL sL) qs (ends_of qR sR).
  Proof.
    unfold rchain, zch, ends_of, left_side, right_side. cbn [fst snd].
    destruct angle; cbn [Bool.eqb]; destruct (Nat.even (length qs)); rewrite ?spv_langle, ?spv_rsquare; reflexivity.
  Qed.
  Definition move (e : ends) : ends := (cm_mul_cv L (fst e), cm_mul_cv (conj_cm L) (snd e)).
  Lemma zch_move angle eL qs qs' eR : Forall2 (moved L) qs qs' ->
    zch angle (move eL) qs' (move eR) = zch angle eL qs eR.
  Proof.
    intros H. unfold zch, move. cbn [fst snd]. rewrite <- (F2_length _ _ _ H), J_conj.
    pose proof (apm_move qs qs' H angle) as K.
    assert (K2 : forall r, apm (rmats angle qs') (if Bool.eqb angle (Nat.even (length qs)) then cm_mul_cv L r else cm_mul_cv (dag (adj L)) r) =
      cm_mul_cv (tr angle) (apm (rmats angle qs) r)).
    { intros r. rewrite <- K. destruct (Bool.eqb angle (Nat.even (length qs))); reflexivity. }
    assert (K3 : (if Bool.eqb angle (Nat.even (length qs)) then cm_mul_cv L (fst eR) else cm_mul_cv (dag (adj L)) (Jv (snd eR))) =
      (let r := if Bool.eqb angle (Nat.even (length qs)) then fst eR else Jv (snd eR) in
       if Bool.eqb angle (Nat.even (length qs)) then cm_mul_cv L r else cm_mul_cv (dag (adj L)) r)).
    { destruct (Bool.eqb angle (Nat.even (length qs))); reflexivity. }
    rewrite K3. cbv zeta. rewrite K2. destruct angle; cbn [tr]; [apply J_det|apply square_det].
  Qed.

  (** *** Linearity *)
  Definition comb (x : C) (e1 : ends) (y : C) (e2 : ends) : ends :=
    (vadd (scale x (fst e1)) (scale y (fst e2)), vadd (scale x (snd e1)) (scale y (snd e2))).
  Lemma J_add (a b : vec) : Jv (vadd a b) = vadd (Jv a) (Jv b).
  Proof. to_reals; ring. Qed.
  Lemma J_scale x (a : vec) : Jv (scale x a) = scale x (Jv a).
  Proof. destruct x. to_reals; ring. Qed.
  Lemma dot_lin x (a : vec) y b r : cv_dot (vadd (scale x a) (scale y b)) r = Cplus (Cmult x (cv_dot a r)) (Cmult y (cv_dot b r)).
  Proof. destruct x, y. to_reals; ring. Qed.
  Lemma zch_left angle x e1 y e2 qs eR :
    zch angle (comb x e1 y e2) qs eR = Cplus (Cmult x (zch angle e1 qs eR)) (Cmult y (zch angle e2 qs eR)).
  Proof. unfold zch, comb. cbn [fst snd]. destruct angle; rewrite ?J_add, ?J_scale; apply dot_lin. Qed.
  Lemma zch_right angle x e1 y e2 qs eL :
    zch angle eL qs (comb x e1 y e2) = Cplus (Cmult x (zch angle eL qs e1)) (Cmult y (zch angle eL qs e2)).
  Proof.
    unfold zch, comb. cbn [fst snd]. rewrite J_add, !J_scale.
    destruct (Bool.eqb angle (Nat.even (length qs))); rewrite apm_vadd, !apm_scale, dot_vadd, !dot_rscale; reflexivity.
  Qed.
  Definition phase (l : C) (e : ends) : ends := (scale l (fst e), scale (Cconj l) (snd e)).
  Lemma dot_lscale x (a b : vec) : cv_dot (scale x a) b = Cmult x (cv_dot a b).
  Proof. destruct x. to_reals; ring. Qed.
  Lemma zch_phase_left angle l e qs eR :
    zch angle (phase l e) qs eR = Cmult (if angle then l else Cconj l) (zch angle e qs eR).
  Proof. unfold zch, phase. cbn [fst snd]. destruct angle; rewrite ?J_scale; apply dot_lscale. Qed.
  Lemma zch_phase_right angle l e qs eL :
    zch angle eL qs (phase l e) = Cmult (if Bool.eqb angle (Nat.even (length qs)) then l else Cconj l) (zch angle eL qs e).
  Proof.
    unfold zch, phase. cbn [fst snd]. rewrite J_scale.
    destruct (Bool.eqb angle (Nat.even (length qs))); rewrite apm_scale, dot_rscale; reflexivity.
  Qed.
  Lemma move_comb x e1 y e2 : move (comb x e1 y e2) = comb x (move e1) y (move e2).
  Proof. unfold move, comb. cbn [fst snd]. f_equal; destruct x, y, e1, e2; to_reals; ring. Qed.

  (** ** The spinors of a transformed momentum *)
  Notation spinor := (rspinor st eps).
  Definition up_of (q : rmom) : ends := ends_of q (Some (1%Z, true)).
  Definition down_of (q : rmom) : ends := ends_of q (Some ((-1)%Z, true)).

  Lemma decompose (w v u : vec) :
    scale (cv_dot (Jv v) u) w = vadd (scale (cv_dot (Jv w) u) v) (scale (cv_dot (Jv v) w) u).
  Proof. to_reals; ring. Qed.
  Lemma outer_v (x y w : vec) : cm_mul_cv (outer x y) w = scale (cv_dot y w) x.
  Proof. to_reals; ring. Qed.
  Lemma scale_scale a b (x : vec) : scale a (scale b x) = scale (Cmult a b) x.
  Proof. destruct a, b. to_reals; ring. Qed.

  (** what is used of the two spinors of a massive momentum *)
  Record pair_of (M : R) (q : rmom) (u v : vec) : Prop := mkPair {
    pa_mat : forall x, cm_mul_cv (momm q false) x = vadd (scale (cv_dot (cv_conj u) x) u) (scale (cv_dot (cv_conj v) x) v);
    pa_det : cv_dot (Jv v) u = RtoC M }.
  Lemma massive_pair m q : on_shell m q -> 0 <= v_0 q -> pair_of (Rabs m) q (spinor q (RAngle, UpM1)) (spinor q (RAngle, UpP1)).
  Proof.
    intros H H0. constructor.
    - intros x. rewrite <- (massive_outer st eps m q H H0), madd_v, outer_v.
      rewrite conj_upm1, conj_upp1, lower_m1, lower_p1. f_equal.
      generalize (spinor q (RAngle, UpP1)) (spinor q (LSquare, UpM1)). intros a b. to_reals; ring.
    - rewrite <- langle_J. exact (massive_angle st eps m q H H0).
  Qed.
  Lemma pair_v M q u v : pair_of M q u v -> cm_mul_cv (momm q false) (Jv (cv_conj u)) = scale (RtoC (- M)) v.
  Proof.
    intros [P D]. rewrite P.
    assert (E1 : cv_dot (cv_conj u) (Jv (cv_conj u)) = RtoC 0) by (to_reals; ring).
    assert (E2 : cv_dot (cv_conj v) (Jv (cv_conj u)) = RtoC (- M)).
    { transitivity (Copp (Cconj (cv_dot (Jv v) u))); [to_reals; ring|]. rewrite D. to_reals; ring. }
    rewrite E1, E2. to_reals; ring.
  Qed.
  Lemma pair_u M q u v : pair_of M q u v -> cm_mul_cv (momm q false) (Jv (cv_conj v)) = scale (RtoC M) u.
  Proof.
    intros [P D]. rewrite P.
    assert (E1 : cv_dot (cv_conj v) (Jv (cv_conj v)) = RtoC 0) by (to_reals; ring).
    assert (E2 : cv_dot (cv_conj u) (Jv (cv_conj v)) = RtoC M).
    { transitivity (Cconj (cv_dot (Jv v) u)); [to_reals; ring|]. rewrite D. to_reals; ring. }
    rewrite E1, E2. to_reals; ring.
  Qed.
  Lemma scale_cancel M (x y : vec) : M <> 0 -> scale (RtoC M) x = scale (RtoC M) y -> x = y.
  Proof.
    intros HM E. rewrite <- (scale_1 x), <- (scale_1 y).
    replace (RtoC 1) with (Cmult (RtoC (/ M)) (RtoC M)).
    - rewrite <- !scale_scale, E. reflexivity.
    - rewrite <- RtoC_mult. f_equal. field. exact HM.
  Qed.
  Lemma pair_move M q q' u v u' v' : M <> 0 -> pair_of M q u v -> pair_of M q' u' v' -> moved L q q' ->
    exists a b : C, Cplus (Cmult a (Cconj a)) (Cmult b (Cconj b)) = RtoC 1 /\
      cm_mul_cv L u = vadd (scale b v') (scale a u') /\
      cm_mul_cv L v = vadd (scale (Cconj a) v') (scale (Copp (Cconj b)) u').
  Proof.
    intros HM HP HP' HV. set (w := cm_mul_cv L u).
    set (b := Cmult (RtoC (/ M)) (cv_dot (Jv w) u')). set (a := Cmult (RtoC (/ M)) (cv_dot (Jv v') w)).
    assert (EM : Cmult (RtoC M) (RtoC (/ M)) = RtoC 1) by (rewrite <- RtoC_mult; f_equal; field; exact HM).
    assert (Eu : w = vadd (scale b v') (scale a u')).
    { apply (scale_cancel M); [exact HM|]. rewrite <- (pa_det _ _ _ _ HP') at 1. rewrite decompose.
      assert (A : forall x y (s t : vec), scale (RtoC M) (vadd (scale x s) (scale y t)) = vadd (scale (Cmult (RtoC M) x) s) (scale (Cmult (RtoC M) y) t)).
      { intros x y s t. destruct x, y. to_reals; ring. }
      rewrite A. unfold a, b. rewrite !Cmult_assoc, EM, !Cmult_1_l. reflexivity. }
    assert (Ev : cm_mul_cv L v = vadd (scale (Cconj a) v') (scale (Copp (Cconj b)) u')).
    { apply (scale_cancel (- M)); [intros K; apply HM; lra|].
      assert (A : forall (s : vec), scale (RtoC (- M)) (cm_mul_cv L s) = cm_mul_cv L (scale (RtoC (- M)) s)) by (intros s; to_reals; ring).
      rewrite A, <- (pair_v _ _ _ _ HP), <- (move_low q q' _ HV), <- J_conj, <- conj_mv. fold w. rewrite Eu.
      assert (B : Jv (cv_conj (vadd (scale b v') (scale a u'))) = vadd (scale (Cconj b) (Jv (cv_conj v'))) (scale (Cconj a) (Jv (cv_conj u')))).
      { clearbody a b. destruct a, b. to_reals; ring. }
      rewrite B.
      assert (E : forall x y (s t : vec), cm_mul_cv (momm q' false) (vadd (scale x s) (scale y t)) =
        vadd (scale x (cm_mul_cv (momm q' false) s)) (scale y (cm_mul_cv (momm q' false) t))).
      { intros x y s t. generalize (momm q' false). intros P. destruct x, y. to_reals; ring. }
      rewrite E, (pair_v _ _ _ _ HP'), (pair_u _ _ _ _ HP'). clearbody a b. destruct a, b. to_reals; ring. }
    exists a, b. split; [|split; assumption].
    assert (N : cv_dot (Jv (cm_mul_cv L v)) (cm_mul_cv L u) = RtoC M) by (rewrite J_det; apply (pa_det _ _ _ _ HP)).
    fold w in N. rewrite Eu, Ev in N.
    assert (N2 : cv_dot (Jv (vadd (scale (Cconj a) v') (scale (Copp (Cconj b)) u'))) (vadd (scale b v') (scale a u')) =
      Cmult (Cplus (Cmult a (Cconj a)) (Cmult b (Cconj b))) (cv_dot (Jv v') u')).
    { clearbody a b. destruct a, b. to_reals; ring. }
    rewrite N2, (pa_det _ _ _ _ HP') in N.
    replace (Cplus (Cmult a (Cconj a)) (Cmult b (Cconj b))) with (Cmult (Cmult (Cplus (Cmult a (Cconj a)) (Cmult b (Cconj b))) (RtoC M)) (RtoC (/ M)));
      [rewrite N; exact EM|]. rewrite <- Cmult_assoc, EM. ring.
  Qed.
  Lemma massive_move m q q' : m <> 0 -> on_shell m q -> 0 <= v_0 q -> on_shell m q' -> 0 <= v_0 q' -> moved L q q' ->
    exists a b : C, Cplus (Cmult a (Cconj a)) (Cmult b (Cconj b)) = RtoC 1 /\
      move (up_of q) = comb (Cconj a) (up_of q') (Copp (Cconj b)) (down_of q') /\
      move (down_of q) = comb b (up_of q') a (down_of q').
  Proof.
    intros Hm H H0 H' H0' HV.
    destruct (pair_move (Rabs m) q q' _ _ _ _ (Rabs_no_R0 _ Hm) (massive_pair m q H H0) (massive_pair m q' H' H0') HV) as (a & b & N & Eu & Ev).
    exists a, b. split; [exact N|].
    assert (SU : forall q, spinor q (LSquare, UpP1) = cv_conj (spinor q (RAngle, UpM1))) by (intros; rewrite conj_upm1, lower_m1; reflexivity).
    assert (SD : forall q, spinor q (LSquare, UpM1) = cv_opp (cv_conj (spinor q (RAngle, UpP1)))).
    { intros q0. rewrite conj_upp1, lower_p1. to_reals; ring. }
    unfold move, comb, up_of, down_of, ends_of. cbn [fst snd ChainReal.spv kind_of Z.eqb Pos.eqb].
    rewrite !SU, !SD.
    assert (OP : forall (M : mat) (x : vec), cm_mul_cv M (cv_opp x) = cv_opp (cm_mul_cv M x)) by (intros; to_reals; ring).
    rewrite OP, <- !conj_mv, Eu, Ev.
    generalize (spinor q' (RAngle, UpP1)) (spinor q' (RAngle, UpM1)). intros x y. clear. destruct a, b.
    split; f_equal; to_reals; ring.
  Qed.
  Definition flat_of (q : rmom) : ends := ends_of q None.
  Lemma massless_move q q' : on_shell 0 q -> 0 <= v_0 q -> on_shell 0 q' -> 0 <= v_0 q' -> moved L q q' ->
    exists l : C, Cmult l (Cconj l) = RtoC 1 /\ move (flat_of q) = phase l (flat_of q').
  Proof.
    intros H H0 H' H0' HV. set (w := cm_mul_cv L (spinor q (RAngle, M0))). set (u' := spinor q' (RAngle, M0)).
    assert (Hq : outer w (cv_conj w) = outer u' (cv_conj u')).
    { unfold u'. rewrite conj_m0, (massless_outer st eps q' H' H0'), HV, <- (massless_outer st eps q H H0), <- conj_m0. unfold w.
      rewrite conj_mv. generalize (spinor q (RAngle, M0)). intros x. unfold dag. to_reals; ring. }
    assert (HX : exists l, Cmult l (Cconj l) = RtoC 1 /\ w = scale l u').
    { clearbody w u'. clear H H0 H' H0' HV.
      assert (N : cv_dot (cv_conj w) w = cv_dot (cv_conj u') u').
      { transitivity (Cplus (m00 (outer w (cv_conj w))) (m11 (outer w (cv_conj w)))); [to_reals; ring|]. rewrite Hq. to_reals; ring. }
      set (n := (fst (cv0 u') * fst (cv0 u') + snd (cv0 u') * snd (cv0 u') + fst (cv1 u') * fst (cv1 u') + snd (cv1 u') * snd (cv1 u'))).
      assert (Nu : cv_dot (cv_conj u') u' = RtoC n) by (unfold n; to_reals; ring).
      destruct (Req_dec n 0) as [E|E].
      - exists (RtoC 1). split; [rewrite conj_1; ring|]. rewrite scale_1.
        assert (Z : forall x : vec, cv_dot (cv_conj x) x = RtoC 0 -> x = @CV num (RtoC 0) (RtoC 0)).
        { intros [[x1 x2] [y1 y2]] K. apply (f_equal fst) in K. cbn -[Rplus Rmult Ropp Rminus] in K.
          unfold Cmult, Cplus, Cconj in K. cbn in K.
          assert (x1 = 0) by nra. assert (x2 = 0) by nra. assert (y1 = 0) by nra. assert (y2 = 0) by nra. subst. reflexivity. }
        rewrite (Z w), (Z u'); [reflexivity| |]; rewrite ?N, Nu, E; reflexivity.
      - set (l := Cmult (RtoC (/ n)) (cv_dot (cv_conj u') w)).
        assert (EN : Cmult (RtoC (/ n)) (RtoC n) = RtoC 1) by (rewrite <- RtoC_mult; f_equal; field; exact E).
        assert (Ew : w = scale l u').
        { apply (scale_cancel n); [exact E|]. rewrite scale_scale. unfold l. rewrite Cmult_assoc, (Cmult_comm (RtoC n)), EN, Cmult_1_l.
          rewrite <- Nu, <- N. rewrite <- outer_v, <- outer_v, Hq. reflexivity. }
        exists l. split; [|exact Ew]. rewrite Ew in N.
        assert (N2 : cv_dot (cv_conj (scale l u')) (scale l u') = Cmult (Cmult l (Cconj l)) (cv_dot (cv_conj u') u')).
        { clearbody l. destruct l. to_reals; ring. }
        rewrite N2, Nu in N.
        replace (Cmult l (Cconj l)) with (Cmult (Cmult (RtoC (/ n)) (RtoC n)) (Cmult l (Cconj l))) by (rewrite EN; ring).
        transitivity (Cmult (RtoC (/ n)) (Cmult (Cmult l (Cconj l)) (RtoC n))); [ring|]. rewrite N. exact EN. }
    destruct HX as (l & Hl & Ew). exists l. split; [exact Hl|].
    unfold move, phase, flat_of, ends_of. cbn [fst snd ChainReal.spv]. fold w u'. rewrite <- !conj_m0. fold u'.
    rewrite <- conj_mv. fold w. rewrite Ew. f_equal. clearbody u'. clear. destruct l. to_reals; ring.
  Qed.

  (** ** Energies and scalar products *)
  Lemma moved_energy m q q' : on_shell m q -> 0 <= v_0 q -> moved L q q' -> 0 <= v_0 q'.
  Proof.
    intros H H0 HV. pose proof (massive_outer st eps m q H H0) as E. unfold moved in HV. rewrite <- E in HV. clear E.
    replace (spinor q (LSquare, UpP1)) with (cv_conj (spinor q (RAngle, UpM1))) in HV by (rewrite conj_upm1, lower_m1; reflexivity).
    replace (spinor q (LSquare, UpM1)) with (cv_opp (cv_conj (spinor q (RAngle, UpP1)))) in HV by (rewrite conj_upp1, lower_p1; to_reals; ring).
    set (u := spinor q (RAngle, UpM1)) in *. set (v := spinor q (RAngle, UpP1)) in *. clearbody u v.
    pose proof (f_equal (fun M : mat => fst (m00 M : C)) HV) as E0. pose proof (f_equal (fun M : mat => fst (m11 M : C)) HV) as E1. cbv beta in E0, E1.
    assert (K : v_0 q' + v_3 q' + (v_0 q' - v_3 q') =
      (fst (cv0 (cm_mul_cv L u) : C) ^ 2 + snd (cv0 (cm_mul_cv L u) : C) ^ 2 + fst (cv1 (cm_mul_cv L u) : C) ^ 2 + snd (cv1 (cm_mul_cv L u) : C) ^ 2) +
      (fst (cv0 (cm_mul_cv L v) : C) ^ 2 + snd (cv0 (cm_mul_cv L v) : C) ^ 2 + fst (cv1 (cm_mul_cv L v) : C) ^ 2 + snd (cv1 (cm_mul_cv L v) : C) ^ 2)).
    { transitivity (fst (m00 (momm q' false) : C) + fst (m11 (momm q' false) : C)); [reflexivity|]. rewrite E0, E1. clear.
      unfold dag. to_reals. ring. }
    assert (P : forall x y z w x' y' z' w' : R, 0 <= (x ^ 2 + y ^ 2 + z ^ 2 + w ^ 2) + (x' ^ 2 + y' ^ 2 + z' ^ 2 + w' ^ 2)) by (intros; nra).
    match type of K with _ = (?x ^ 2 + ?y ^ 2 + ?z ^ 2 + ?w ^ 2) + (?x' ^ 2 + ?y' ^ 2 + ?z' ^ 2 + ?w' ^ 2) => pose proof (P x y z w x' y' z' w') as KP end.
    rewrite <- K in KP. lra.
  Qed.
  Definition trm (M : mat) : C := Cplus (m00 M) (m11 M).
  Lemma tr_dot q1 q2 : trm (cm_mul (momm q1 false) (adj (momm q2 false))) = RtoC (2 * minkdot q1 q2).
  Proof. unfold trm, minkdot. to_reals; ring. Qed.
  Lemma tr_move_det (K A B : mat) :
    trm (cm_mul (cm_mul K (cm_mul A (dag K))) (adj (cm_mul K (cm_mul B (dag K))))) =
    Cmult (Cmult (detm K) (Cconj (detm K))) (trm (cm_mul A (adj B))).
  Proof.
    unfold detm. assert (E : Cconj (Cminus (Cmult (m00 K) (m11 K)) (Cmult (m01 K) (m10 K))) =
      Cminus (Cmult (Cconj (m00 K)) (Cconj (m11 K))) (Cmult (Cconj (m01 K)) (Cconj (m10 K)))) by (to_reals; ring).
    rewrite E. destruct K as [k0 k1 k2 k3], A as [a0 a1 a2 a3], B as [b0 b1 b2 b3].
    unfold trm, dag, tr_cm, conj_cm, adj, cm_mul. cbn [m00 m01 m10 m11 cadd cmul num RN].
    generalize (Cconj k0) (Cconj k1) (Cconj k2) (Cconj k3). intros l0 l1 l2 l3.
    match goal with |- ?a = ?b => change (@eq C a b) end. cbn. ring.
  Qed.
  Lemma moved_dot q1 q2 q1' q2' : moved L q1 q1' -> moved L q2 q2' -> minkdot q1' q2' = minkdot q1 q2.
  Proof.
    intros H1 H2. assert (K : RtoC (2 * minkdot q1' q2') = RtoC (2 * minkdot q1 q2)).
    { rewrite <- !tr_dot, H1, H2, tr_move_det, HL, conj_1. ring. }
    apply (f_equal fst) in K. unfold RtoC in K. cbn [fst] in K. lra.
  Qed.
End Lorentz.

(** ** The transformations of utilities.cpp *)
Section Steps.
  Variables (st : bool) (eps : R).
  Notation num := (RN st eps).
  Notation detm := (detm st eps).
  Notation moved := (moved st eps).
  Lemma rotate_moved (u : vec3 R) theta : norm3 u = 1 ->
    exists L, detm L = RtoC 1 /\ forall p : vec4 R, moved L p (rotate_momentum (num:=num) p u theta).
  Proof.
    intros Hu. pose proof (cs_abs theta) as CS. rewrite <- sin_part in CS.
    set (c := cos theta) in *. set (s := sqrt (1 - c * c)) in *.
    assert (Hs : 0 <= s) by apply sqrt_pos. assert (Hc : -1 <= c <= 1) by (unfold c; apply COS_bound).
    set (a := sqrt ((1 + c) / 2)). set (b := sqrt ((1 - c) / 2)).
    assert (A : a * a = (1 + c) / 2) by (apply sqrt_sqrt; lra).
    assert (B : b * b = (1 - c) / 2) by (apply sqrt_sqrt; lra).
    assert (AB : 2 * (a * b) = s).
    { apply Rsqr_inj; [|exact Hs|].
      - assert (0 <= a) by apply sqrt_pos. assert (0 <= b) by apply sqrt_pos. nra.
      - unfold Rsqr. replace (2 * (a * b) * (2 * (a * b))) with (4 * (a * a) * (b * b)) by ring. rewrite A, B. lra. }
    exists (@CM num (a, - (b * x_2 u)) (- (b * x_1 u), - (b * x_0 u)) (b * x_1 u, - (b * x_0 u)) (a, b * x_2 u)).
    assert (AA : a * a + b * b = 1) by lra. assert (AC : a * a - b * b = c) by lra.
    unfold norm3 in Hu. split.
    - unfold Lorentz.detm. to_reals; [|ring].
      replace (a * a - - (b * x_2 u) * (b * x_2 u) + - (- (b * x_1 u) * (b * x_1 u) - - (b * x_0 u) * - (b * x_0 u)))
        with (a * a + b * b * (x_0 u * x_0 u + x_1 u * x_1 u + x_2 u * x_2 u)) by ring. rewrite Hu. lra.
    - intros p. unfold Lorentz.moved. rewrite rotate_unfold. fold c. fold s. rewrite <- AB, <- AC.
      clearbody a b. clear -AA Hu. destruct u as [x y z], p as [p0 p1 p2 p3]. unfold rodrigues, sp3, dot3, dag.
      cbn [x_0 x_1 x_2 v_0 v_1 v_2 v_3] in *. assert (W : (a * a + b * b) * (x * x + y * y + z * z) = 1) by (rewrite AA, Hu; ring).
      to_reals; nsatz.
  Qed.
  Lemma boost_moved (v : vec3 R) : 0 < norm3 v < 1 ->
    exists L, detm L = RtoC 1 /\ forall p : vec4 R, moved L p (boost_momentum (num:=num) p v).
  Proof.
    intros Hv. destruct (gam_facts v Hv) as (G & K & G1). pose proof (kap_eq v Hv) as KE.
    set (a := sqrt ((gam v + 1) / 2)).
    assert (A : a * a = (gam v + 1) / 2) by (apply sqrt_sqrt; lra).
    assert (A0 : 0 < a) by (apply sqrt_lt_R0; lra).
    set (b := gam v / (2 * a)). assert (AB : 2 * (a * b) = gam v) by (unfold b; field; lra).
    assert (BB : 2 * (b * b) = kap v).
    { apply (Rmult_eq_reg_r (a * a)); [|nra]. replace (2 * (b * b) * (a * a)) with ((2 * (a * b)) * (2 * (a * b)) / 2) by field.
      rewrite AB, A. lra. }
    exists (@CM num (a - b * x_2 v, 0) (- (b * x_0 v), b * x_1 v) (- (b * x_0 v), - (b * x_1 v)) (a + b * x_2 v, 0)).
    assert (N : a * a - b * b * norm3 v = 1) by nra.
    split.
    - unfold Lorentz.detm. to_reals; [|ring]. rewrite <- N. unfold norm3. ring.
    - intros p. unfold Lorentz.moved. rewrite boost_unfold. cbv zeta. rewrite <- BB, <- AB.
      assert (Q : a * a + b * b * norm3 v = gam v) by nra. rewrite <- AB in Q.
      clearbody a b. clear -N Q. destruct v as [x y z], p as [p0 p1 p2 p3]. unfold norm3, sp3, dot3, dag in *.
      cbn [x_0 x_1 x_2 v_0 v_1 v_2 v_3] in *. to_reals; nsatz.
  Qed.
End Steps.
