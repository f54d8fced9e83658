(** * Spinor chains over the exact reals *)
From Coq Require Import Reals Lra.
From Coquelicot Require Import Complex.
From Verif Require Import Base Scalar Linear Particle ParticleProofs RealNum SpecSpinor ParticleReal
  SpinorReal Ready ParticleClaims SpecSproduct SpecChain.
Open Scope R_scope.

Section ChainReal.
  Variables (st : bool) (eps : R).
  Notation num := (RN st eps).
  Notation rmom := (vec4 R).
  Notation particle := (particle num).
  Notation Jv := (Jv st eps).
  Notation adj := (adj st eps).
  Notation vec := (cvector num).
  Notation mat := (cmatrix num).
  Notation momm q u := (cmatrix_of_mom (num:=num) q u).

  (** ** Linear algebra *)
  Definition apm (Ms : list mat) (v : vec) : vec := fold_right cm_mul_cv v Ms.

  Lemma apm_cons M Ms v : apm (M :: Ms) v = cm_mul_cv M (apm Ms v).
  Proof. reflexivity. Qed.
  Lemma dot_vm (l : vec) (M : mat) (r : vec) : cv_dot (cv_mul_cm l M) r = cv_dot l (cm_mul_cv M r).
  Proof. to_reals; ring. Qed.
  Lemma mm_v (M N : mat) (v : vec) : cm_mul_cv (cm_mul M N) v = cm_mul_cv M (cm_mul_cv N v).
  Proof. to_reals; ring. Qed.
  Lemma fold_mul Ms : forall (M : mat) (v : vec),
    cm_mul_cv (fold_left cm_mul Ms M) v = cm_mul_cv M (apm Ms v).
  Proof. induction Ms as [|N Ms IH]; intros M v; simpl; [reflexivity|]. rewrite IH, mm_v. reflexivity. Qed.
  Lemma sandwich_apm l Ms r : sandwich (num:=num) l Ms r = cv_dot l (apm Ms r).
  Proof. destruct Ms as [|M Ms]; [reflexivity|]. unfold sandwich. rewrite dot_vm, fold_mul. reflexivity. Qed.
  Lemma apm_app xs ys v : apm (xs ++ ys) v = apm xs (apm ys v).
  Proof. apply fold_right_app. Qed.

  Lemma J_move (a : vec) (M : mat) (b : vec) :
    cv_dot (Jv a) (cm_mul_cv M b) = cv_dot (Jv (cm_mul_cv (adj M) a)) b.
  Proof. to_reals; ring. Qed.
  Lemma J_anti (a b : vec) : cv_dot (Jv a) b = Copp (cv_dot (Jv b) a).
  Proof. to_reals; ring. Qed.
  Lemma J_anti' (a b : vec) : cv_dot a (Jv b) = Copp (cv_dot (Jv a) b).
  Proof. to_reals; ring. Qed.
  Lemma Copp_invol (z : C) : Copp (Copp z) = z.
  Proof. to_reals; ring. Qed.
  Lemma J_J (a b : vec) : cv_dot (Jv a) (Jv b) = cv_dot a b.
  Proof. to_reals; ring. Qed.
  Lemma dot_sym (a b : vec) : cv_dot a b = cv_dot b a.
  Proof. to_reals; ring. Qed.
  Lemma J_chain Ms : forall a b,
    cv_dot (Jv a) (apm Ms b) = cv_dot (Jv (apm (rev (map adj Ms)) a)) b.
  Proof.
    induction Ms as [|M Ms IH]; intros a b; [reflexivity|].
    cbn [map rev]. rewrite apm_cons, J_move, IH, apm_app. reflexivity.
  Qed.

  Notation tr_cm := (tr_cm st eps).
  Notation conj_cm := (conj_cm st eps).
  Lemma dot_conj (a b : vec) : Cconj (cv_dot a b) = cv_dot (cv_conj a) (cv_conj b).
  Proof. to_reals; ring. Qed.
  Lemma conj_mv (M : mat) (v : vec) : cv_conj (cm_mul_cv M v) = cm_mul_cv (conj_cm M) (cv_conj v).
  Proof. to_reals; ring. Qed.
  Lemma tr_move (a : vec) (M : mat) (b : vec) : cv_dot a (cm_mul_cv M b) = cv_dot (cm_mul_cv (tr_cm M) a) b.
  Proof. to_reals; ring. Qed.
  Lemma mom_herm (q : rmom) u : tr_cm (conj_cm (momm q u)) = momm q u.
  Proof. destruct u; to_reals; ring. Qed.

  (** ** The matrices of a chain *)
  Fixpoint rmats (lower : bool) (qs : list rmom) : list mat :=
    match qs with [] => [] | q :: qs' => momm q (negb lower) :: rmats (negb lower) qs' end.
  Lemma even_S n : Nat.even (S n) = negb (Nat.even n).
  Proof. rewrite Nat.even_succ, <- Nat.negb_even. reflexivity. Qed.
  Lemma rmats_app xs : forall lower ys,
    rmats lower (xs ++ ys) = rmats lower xs ++ rmats (Bool.eqb lower (Nat.even (length xs))) ys.
  Proof.
    induction xs as [|x xs IH]; intros lower ys.
    - destruct lower; reflexivity.
    - cbn [rmats app length]. rewrite IH, even_S. f_equal. f_equal.
      destruct lower, (Nat.even (length xs)); reflexivity.
  Qed.
  Lemma adj_mom (q : rmom) u : adj (momm q u) = momm q (negb u).
  Proof. destruct u; [symmetry; apply lmat_adj|symmetry; apply umat_adj]. Qed.
  Lemma rmats_adj qs : forall lower, map adj (rmats lower qs) = rmats (negb lower) qs.
  Proof. induction qs as [|q qs IH]; intros lower; simpl; [reflexivity|]. rewrite adj_mom, IH. reflexivity. Qed.
  Lemma rmats_rev qs : forall lower,
    rev (rmats lower qs) = rmats (Bool.eqb (negb lower) (Nat.even (length qs))) (rev qs).
  Proof.
    induction qs as [|q qs IH]; intros lower; [reflexivity|].
    cbn [rmats rev length]. rewrite IH, rmats_app, rev_length, even_S. cbn [rmats].
    destruct lower, (Nat.even (length qs)); reflexivity.
  Qed.
  Lemma chain_conj qs : forall lower a b,
    Cconj (cv_dot a (apm (rmats lower qs) b)) = cv_dot (cv_conj b) (apm (rev (rmats lower qs)) (cv_conj a)).
  Proof.
    intros lower a b. rewrite dot_conj.
    assert (K : forall a', cv_dot a' (cv_conj (apm (rmats lower qs) b))
                = cv_dot (cv_conj b) (apm (rev (rmats lower qs)) a')).
    { revert lower. induction qs as [|q qs IH]; intros lower a'; cbn [rmats rev];
        [apply dot_sym|].
      rewrite apm_cons, conj_mv, tr_move, mom_herm, IH, apm_app. reflexivity. }
    apply K.
  Qed.

  (** ** The ends *)
  Definition spv (q : rmom) (d : side) (s : option (Z * bool)) : vec :=
    match s with None => rspinor st eps q (d, M0) | Some (j, u) => rspinor st eps q (d, kind_of j u) end.
  (** What a call with the arguments [s] needs: no argument on a massless particle, a spin
      on a massive one. *)
  Definition good_end (m : R) (s : option (Z * bool)) : Prop :=
    match s with None => m = 0 | Some (j, _) => m <> 0 /\ is_spin j end.

  Lemma end_eval d s m q (P : particle) : ready (num:=num) m q P -> good_end m s ->
    end_spinor d s P = Ok (spv q d s).
  Proof.
    intros HR HG. destruct s as [[j u]|]; cbn [end_spinor good_end spv] in *.
    - destruct HG as [Hm Hj]. rewrite (ready_spinor2 _ _ _ _ _ _ _ _ HR).
      rewrite (proj2 (spin_test_f j) Hj). apply Reqb_false in Hm. rewrite Hm. reflexivity.
    - subst m. rewrite (ready_spinor0 _ _ _ _ _ _ HR), Reqb_refl. reflexivity.
  Qed.
  Lemma end_inv d s m q (P : particle) v : ready (num:=num) m q P ->
    end_spinor d s P = Ok v -> v = spv q d s /\ good_end m s.
  Proof.
    intros HR. destruct s as [[j u]|]; cbn [end_spinor good_end spv].
    - rewrite (ready_spinor2 _ _ _ _ _ _ _ _ HR).
      destruct (negb (j =? 1)%Z && negb (j =? -1)%Z) eqn:E; [discriminate|].
      destruct (Reqb m 0) eqn:Em; [discriminate|]. intros [= <-].
      split; [reflexivity|]. split; [apply Reqb_false, Em|apply spin_test_f, E].
    - rewrite (ready_spinor0 _ _ _ _ _ _ HR). destruct (Reqb m 0) eqn:Em; [|discriminate].
      intros [= <-]. split; [reflexivity|]. apply Reqb_true, Em.
  Qed.
  (** P carries the momentum q *)
  Definition carries (P : particle) (q : rmom) : Prop := exists m, ready (num:=num) m q P.
  Lemma mats_eval ps qs : Forall2 carries ps qs -> forall lower, chain_mats lower ps = Ok (rmats lower qs).
  Proof.
    induction 1 as [|P q ps qs (m & HR) _ IH]; intros lower; simpl; [reflexivity|].
    rewrite IH. destruct lower; [rewrite (ready_lmat _ _ _ _ _ HR)|rewrite (ready_umat _ _ _ _ _ HR)]; reflexivity.
  Qed.
  Lemma F2_length {A B} (R : A -> B -> Prop) l l' : Forall2 R l l' -> length l = length l'.
  Proof. induction 1; simpl; congruence. Qed.
  Definition rchain (angle : bool) sL qL qs sR qR : C :=
    cv_dot (spv qL (left_side angle) sL) (apm (rmats angle qs) (spv qR (right_side angle (length qs)) sR)).
  Lemma chain_eval angle sL mL qL PL ps qs sR mR qR PR :
    ready (num:=num) mL qL PL -> Forall2 carries ps qs -> ready (num:=num) mR qR PR ->
    good_end mL sL -> good_end mR sR ->
    chain angle sL PL ps sR PR = Ok (rchain angle sL qL qs sR qR).
  Proof.
    intros HL HM HR GL GR. unfold chain, rchain.
    rewrite (end_eval _ _ _ _ _ HL GL), (mats_eval _ _ HM). cbn [obind].
    rewrite (end_eval _ _ _ _ _ HR GR). cbn [obind]. rewrite sandwich_apm, (F2_length _ _ _ HM). reflexivity.
  Qed.
  Lemma chain_inv angle sL mL qL PL ps qs sR mR qR PR x :
    ready (num:=num) mL qL PL -> Forall2 carries ps qs -> ready (num:=num) mR qR PR ->
    chain angle sL PL ps sR PR = Ok x ->
    good_end mL sL /\ good_end mR sR /\ x = rchain angle sL qL qs sR qR.
  Proof.
    intros HL HM HR. unfold chain.
    destruct (end_spinor (left_side angle) sL PL) as [l| |] eqn:EL; try discriminate.
    rewrite (mats_eval _ _ HM). cbn [obind].
    destruct (end_spinor _ sR PR) as [r| |] eqn:ER; try discriminate. cbn [obind].
    destruct (end_inv _ _ _ _ _ _ HL EL) as [-> GL]. destruct (end_inv _ _ _ _ _ _ HR ER) as [-> GR].
    intros [= <-]. split; [exact GL|]. split; [exact GR|].
    unfold rchain. rewrite sandwich_apm, (F2_length _ _ _ HM). reflexivity.
  Qed.

  Lemma spv_langle q s : spv q LAngle s = Jv (spv q RAngle s).
  Proof. destruct s as [[j u]|]; apply langle_J. Qed.
  Lemma spv_rsquare q s : spv q RSquare s = Jv (spv q LSquare s).
  Proof. destruct s as [[j u]|]; apply rsquare_J. Qed.

  (** ** Reversal *)
  Lemma eqb_twice a b : Bool.eqb (Bool.eqb a b) b = a.
  Proof. destruct a, b; reflexivity. Qed.
  Lemma rchain_reverse angle sL qL qs sR qR :
    rchain (Bool.eqb angle (Nat.even (length qs))) sR qR (rev qs) sL qL =
      if Nat.even (length qs) then Copp (rchain angle sL qL qs sR qR) else rchain angle sL qL qs sR qR.
  Proof.
    unfold rchain. rewrite rev_length. unfold right_side, left_side.
    rewrite eqb_twice. pose proof (rmats_rev qs (negb angle)) as RR. rewrite negb_involutive in RR.
    rewrite <- RR, <- rmats_adj. clear RR.
    destruct angle, (Nat.even (length qs)); cbn [Bool.eqb];
      rewrite ?spv_langle, ?spv_rsquare.
    - rewrite (J_chain _ (spv qL RAngle sL)), J_anti. reflexivity.
    - rewrite (J_chain _ (spv qL RAngle sL)), J_J, dot_sym. reflexivity.
    - rewrite (dot_sym (spv qL LSquare sL)).
      assert (K : forall Ms (a b : vec), cv_dot (apm Ms (Jv b)) a =
                   Copp (cv_dot b (apm (rev (map adj Ms)) (Jv a)))).
      { intros Ms a b. rewrite dot_sym.
        replace (cv_dot a (apm Ms (Jv b))) with (Copp (cv_dot (Jv (Jv a)) (apm Ms (Jv b)))) by (to_reals; ring).
        rewrite J_chain, J_J, dot_sym. reflexivity. }
      rewrite K, Copp_invol. reflexivity.
    - assert (K : forall Ms (a b : vec), cv_dot (Jv b) (apm (rev (map adj Ms)) (Jv a)) = cv_dot a (apm Ms b)).
      { intros Ms a b. replace (cv_dot a (apm Ms b)) with (Copp (cv_dot (Jv (Jv a)) (apm Ms b))) by (to_reals; ring).
        rewrite (J_chain Ms (Jv a) b), (J_anti b). reflexivity. }
      apply K.
  Qed.

  (** ** Complex conjugation *)
  Definition other (d : side) : side :=
    match d with LAngle => RSquare | RSquare => LAngle | RAngle => LSquare | LSquare => RAngle end.
  Definition is_angle (d : side) : bool := match d with LAngle | RAngle => true | _ => false end.
  Lemma good_spin m j u : good_end m (Some (j, u)) -> is_spin j.
  Proof. intros [_ H]; exact H. Qed.
  Lemma spv_conj m q d s : good_end m s ->
    cv_conj (spv q d s) = cv_scale (num:=num) (RtoC (csign (is_angle d) s)) (spv q (other d) (flip s)).
  Proof.
    intros HG. destruct s as [[j u]|].
    - destruct (good_spin _ _ _ HG) as [-> | ->]; destruct d, u; cbn [spv flip other is_angle csign Bool.eqb kind_of Z.eqb Pos.eqb negb];
        to_reals; ring.
    - destruct d; cbn [spv flip other is_angle csign]; to_reals; ring.
  Qed.
  Lemma dot_scale (a b : C) (x y : vec) Ms :
    cv_dot (cv_scale (num:=num) a x) (apm Ms (cv_scale (num:=num) b y)) = Cmult (Cmult a b) (cv_dot x (apm Ms y)).
  Proof.
    assert (K : forall Ms, apm Ms (cv_scale (num:=num) b y) = cv_scale (num:=num) b (apm Ms y)).
    { induction Ms0 as [|M Ms0 IH]; [reflexivity|]. rewrite !apm_cons, IH.
      generalize (apm Ms0 y). intros v. destruct b. to_reals; ring. }
    rewrite K. generalize (apm Ms y). intros v. destruct a, b. to_reals; ring.
  Qed.
  Lemma rchain_conj angle mL sL qL qs mR sR qR : good_end mL sL -> good_end mR sR ->
    Cconj (rchain angle sL qL qs sR qR) =
    Cmult (RtoC (csign angle sL * csign (Bool.eqb angle (Nat.even (length qs))) sR))
      (rchain (negb (Bool.eqb angle (Nat.even (length qs)))) (flip sR) qR (rev qs) (flip sL) qL).
  Proof.
    intros GL GR. unfold rchain. rewrite chain_conj, (spv_conj mR qR _ sR GR), (spv_conj mL qL _ sL GL).
    rewrite dot_scale, rmats_rev, rev_length, RtoC_mult, (Cmult_comm (RtoC (csign angle sL))).
    unfold left_side, right_side.
    destruct angle, (Nat.even (length qs)); cbn [Bool.eqb negb is_angle other]; reflexivity.
  Qed.

  (** ** Schouten *)
  Lemma schouten (a b c d : vec) :
    Cplus (Cplus (Cmult (cv_dot (Jv a) b) (cv_dot (Jv c) d)) (Cmult (cv_dot (Jv a) c) (cv_dot (Jv d) b)))
          (Cmult (cv_dot (Jv a) d) (cv_dot (Jv b) c)) = RtoC 0.
  Proof. to_reals; ring. Qed.
  Lemma rchain_schouten angle s1 q1 s2 q2 s3 q3 s4 q4 :
    Cplus (Cplus (Cmult (rchain angle s1 q1 [] s2 q2) (rchain angle s3 q3 [] s4 q4))
                 (Cmult (rchain angle s1 q1 [] s3 q3) (rchain angle s4 q4 [] s2 q2)))
          (Cmult (rchain angle s1 q1 [] s4 q4) (rchain angle s2 q2 [] s3 q3)) = RtoC 0.
  Proof.
    unfold rchain. cbn [rmats apm fold_right length Nat.even]. unfold left_side, right_side.
    destruct angle; cbn [Bool.eqb]; rewrite ?spv_langle, ?spv_rsquare.
    - apply schouten.
    - rewrite !J_anti'. rewrite <- (schouten (spv q1 LSquare s1) (spv q2 LSquare s2) (spv q3 LSquare s3) (spv q4 LSquare s4)).
      ring.
  Qed.

  (** ** Completeness *)
  Lemma outer_insert (l r x y : vec) Ms Ns :
    Cmult (cv_dot l (apm Ms x)) (cv_dot y (apm Ns r)) = cv_dot l (apm Ms (cm_mul_cv (outer x y) (apm Ns r))).
  Proof.
    generalize (apm Ns r). intros w.
    assert (K : cm_mul_cv (outer x y) w = cv_scale (num:=num) (cv_dot y w) x) by (to_reals; ring).
    rewrite K. pose proof (dot_scale (RtoC 1) (cv_dot y w) l x Ms) as D.
    replace (cv_scale (num:=num) (RtoC 1) l) with l in D by (to_reals; ring). rewrite D. ring.
  Qed.
  Definition vadd (x y : vec) : vec := @CV num (Cplus (cv0 x) (cv0 y)) (Cplus (cv1 x) (cv1 y)).
  Lemma apm_vadd Ms x y : apm Ms (vadd x y) = vadd (apm Ms x) (apm Ms y).
  Proof.
    induction Ms as [|M Ms IH]; [reflexivity|]. rewrite !apm_cons, IH.
    generalize (apm Ms x) (apm Ms y). intros a b. to_reals; ring.
  Qed.
  Lemma dot_vadd l x y : cv_dot l (vadd x y) = Cplus (cv_dot l x) (cv_dot l y).
  Proof. to_reals; ring. Qed.
  Lemma madd_v (A B : mat) (v : vec) : cm_mul_cv (cm_add A B) v = vadd (cm_mul_cv A v) (cm_mul_cv B v).
  Proof. to_reals; ring. Qed.
  Lemma apm_scale c Ms v : apm Ms (cv_scale (num:=num) c v) = cv_scale (num:=num) c (apm Ms v).
  Proof.
    induction Ms as [|M Ms IH]; [reflexivity|]. rewrite !apm_cons, IH.
    generalize (apm Ms v). intros a. destruct c. to_reals; ring.
  Qed.
  Lemma dot_rscale c (x y : vec) : cv_dot x (cv_scale (num:=num) c y) = Cmult c (cv_dot x y).
  Proof. destruct c. to_reals; ring. Qed.

  (** the bracket on the right, |i> or |i], and on the left *)
  Definition rside (angle : bool) : side := if angle then RAngle else RSquare.
  Lemma complete_mat m q a1 a2 u : on_shell m q -> 0 <= v_0 q ->
    cm_add (outer (spv q (rside a1) (Some ((-1)%Z, u))) (spv q (left_side a2) (Some ((-1)%Z, negb u))))
           (outer (spv q (rside a1) (Some (1%Z, u))) (spv q (left_side a2) (Some (1%Z, negb u)))) =
    if Bool.eqb a1 a2 then scalar_mat st eps (csign a1 (Some (1%Z, u)) * Rabs m)
    else cm_scale (num:=num) (momm q (negb a1)) (RtoC (csign a1 (Some (1%Z, u)))).
  Proof.
    intros H H0. pose proof (massive_algebra_real st eps m q H H0) as MA.
    assert (S1 : forall M : mat, cm_scale (num:=num) M (RtoC 1) = M) by (intros M; to_reals; ring).
    assert (S2 : forall M : mat, cm_scale (num:=num) M (RtoC (-1)) = cm_opp M) by (intros M; to_reals; ring).
    destruct a1, a2, u; cbn [Bool.eqb negb csign rside left_side spv];
      rewrite ?S1, ?S2, ?Rmult_1_l; replace (-1 * Rabs m) with (- Rabs m) by ring.
    - exact (ma_sum5 _ _ _ _ _ _ _ _ _ MA).
    - exact (ma_sum6 _ _ _ _ _ _ _ _ _ MA).
    - exact (ma_sum1 _ _ _ _ _ _ _ _ _ MA).
    - exact (ma_sum2 _ _ _ _ _ _ _ _ _ MA).
    - exact (ma_sum4 _ _ _ _ _ _ _ _ _ MA).
    - exact (ma_sum3 _ _ _ _ _ _ _ _ _ MA).
    - exact (ma_sum7 _ _ _ _ _ _ _ _ _ MA).
    - exact (ma_sum8 _ _ _ _ _ _ _ _ _ MA).
  Qed.
  Lemma massless_mat q a1 : on_shell 0 q -> 0 <= v_0 q ->
    outer (spv q (rside a1) None) (spv q (left_side (negb a1)) None) = momm q (negb a1).
  Proof.
    intros H H0. pose proof (massless_algebra_real st eps q H H0) as MA.
    destruct a1; [apply (ml_outer1 _ _ _ _ _ _ _ _ MA)|apply (ml_outer2 _ _ _ _ _ _ _ _ MA)].
  Qed.

  Lemma right_side_r angle n : right_side angle n = rside (Bool.eqb angle (Nat.even n)).
  Proof. reflexivity. Qed.
  Lemma insert_mats angle qs q rs :
    rmats angle (qs ++ q :: rs) =
      rmats angle qs ++ momm q (negb (Bool.eqb angle (Nat.even (length qs)))) ::
      rmats (negb (Bool.eqb angle (Nat.even (length qs)))) rs.
  Proof. rewrite rmats_app. reflexivity. Qed.
  Lemma insert_side angle qs (q : rmom) rs :
    right_side angle (length (qs ++ q :: rs)) =
    right_side (negb (Bool.eqb angle (Nat.even (length qs)))) (length rs).
  Proof.
    rewrite app_length. cbn [length]. unfold right_side. rewrite Nat.even_add, even_S.
    destruct angle, (Nat.even (length qs)), (Nat.even (length rs)); reflexivity.
  Qed.
  Lemma append_side angle (qs rs : list rmom) :
    right_side angle (length (qs ++ rs)) =
    right_side (Bool.eqb angle (Nat.even (length qs))) (length rs).
  Proof.
    rewrite app_length. unfold right_side. rewrite Nat.even_add.
    destruct angle, (Nat.even (length qs)), (Nat.even (length rs)); reflexivity.
  Qed.

  (** sum over the spins of a massive intermediate particle, opposite brackets *)
  Lemma insert_massive angle sL qL qs m q u rs sR qR : on_shell m q -> 0 <= v_0 q ->
    let a1 := Bool.eqb angle (Nat.even (length qs)) in
    Cplus (Cmult (rchain angle sL qL qs (Some ((-1)%Z, u)) q) (rchain (negb a1) (Some ((-1)%Z, negb u)) q rs sR qR))
          (Cmult (rchain angle sL qL qs (Some (1%Z, u)) q) (rchain (negb a1) (Some (1%Z, negb u)) q rs sR qR))
    = Cmult (RtoC (csign a1 (Some (1%Z, u)))) (rchain angle sL qL (qs ++ q :: rs) sR qR).
  Proof.
    intros H H0 a1. unfold rchain. rewrite !outer_insert, <- dot_vadd, <- apm_vadd, <- madd_v.
    rewrite right_side_r. fold a1. rewrite (complete_mat m) by assumption.
    replace (Bool.eqb a1 (negb a1)) with false by (destruct a1; reflexivity).
    rewrite insert_mats, insert_side, apm_app, apm_cons. fold a1.
    generalize (apm (rmats (negb a1) rs) (spv qR (right_side (negb a1) (length rs)) sR)). intros w.
    replace (cm_mul_cv (cm_scale (num:=num) (momm q (negb a1)) (RtoC (csign a1 (Some (1%Z, u))))) w)
      with (cv_scale (num:=num) (RtoC (csign a1 (Some (1%Z, u)))) (cm_mul_cv (momm q (negb a1)) w))
      by (generalize (momm q (negb a1)); intros M; to_reals; ring).
    rewrite apm_scale, dot_rscale. reflexivity.
  Qed.
  (** same brackets: a factor of the mass *)
  Lemma insert_mass angle sL qL qs m q u rs sR qR : on_shell m q -> 0 <= v_0 q ->
    let a1 := Bool.eqb angle (Nat.even (length qs)) in
    Cplus (Cmult (rchain angle sL qL qs (Some ((-1)%Z, u)) q) (rchain a1 (Some ((-1)%Z, negb u)) q rs sR qR))
          (Cmult (rchain angle sL qL qs (Some (1%Z, u)) q) (rchain a1 (Some (1%Z, negb u)) q rs sR qR))
    = Cmult (RtoC (csign a1 (Some (1%Z, u)) * Rabs m)) (rchain angle sL qL (qs ++ rs) sR qR).
  Proof.
    intros H H0 a1. unfold rchain. rewrite !outer_insert, <- dot_vadd, <- apm_vadd, <- madd_v.
    rewrite right_side_r. fold a1. rewrite (complete_mat m) by assumption. rewrite Bool.eqb_reflx.
    rewrite rmats_app, append_side, apm_app. fold a1.
    generalize (apm (rmats a1 rs) (spv qR (right_side a1 (length rs)) sR)). intros w.
    generalize (csign a1 (Some (1%Z, u)) * Rabs m). intros x.
    replace (cm_mul_cv (scalar_mat st eps x) w) with (cv_scale (num:=num) (RtoC x) w) by (to_reals; ring).
    rewrite apm_scale, dot_rscale. reflexivity.
  Qed.
  Lemma insert_massless angle sL qL qs q rs sR qR : on_shell 0 q -> 0 <= v_0 q ->
    let a1 := Bool.eqb angle (Nat.even (length qs)) in
    Cmult (rchain angle sL qL qs None q) (rchain (negb a1) None q rs sR qR)
    = rchain angle sL qL (qs ++ q :: rs) sR qR.
  Proof.
    intros H H0 a1. unfold rchain. rewrite !outer_insert.
    rewrite right_side_r. fold a1. rewrite massless_mat by assumption.
    rewrite insert_mats, insert_side, apm_app, apm_cons. reflexivity.
  Qed.

  (** ** Momentum conservation *)
  Definition wsum (l : list (R * rmom)) (f : rmom -> R) : R :=
    fold_right (fun cq acc => fst cq * f (snd cq) + acc) 0 l.
  Definition wmom (l : list (R * rmom)) : rmom := V4 (wsum l v_0) (wsum l v_1) (wsum l v_2) (wsum l v_3).
  Definition cwsum (l : list (R * rmom)) (f : rmom -> C) : C :=
    fold_right (fun cq acc => Cplus (Cmult (RtoC (fst cq)) (f (snd cq))) acc) (RtoC 0) l.
  Lemma lin_insert (l v : vec) Ms b (ks : list (R * rmom)) :
    cwsum ks (fun q => cv_dot l (apm Ms (cm_mul_cv (momm q b) v))) =
    cv_dot l (apm Ms (cm_mul_cv (momm (wmom ks) b) v)).
  Proof.
    induction ks as [|[c q] ks IH]; cbn [cwsum fold_right fst snd].
    - assert (Z : cm_mul_cv (momm (wmom []) b) v = cv_scale (num:=num) (RtoC 0) v)
        by (destruct b; to_reals; ring).
      rewrite Z, apm_scale, dot_rscale. ring.
    - fold (cwsum ks (fun q0 => cv_dot l (apm Ms (cm_mul_cv (momm q0 b) v)))). rewrite IH.
      rewrite <- dot_rscale, <- apm_scale, <- dot_vadd, <- apm_vadd. f_equal. f_equal.
      change (wmom ((c, q) :: ks)) with (V4 (c * v_0 q + wsum ks v_0) (c * v_1 q + wsum ks v_1)
        (c * v_2 q + wsum ks v_2) (c * v_3 q + wsum ks v_3)). unfold wmom.
      generalize (wsum ks v_0) (wsum ks v_1) (wsum ks v_2) (wsum ks v_3). intros x0 x1 x2 x3.
      destruct b; to_reals; ring.
  Qed.
  Lemma rchain_conservation angle sL qL qs rs sR qR (ks : list (R * rmom)) :
    wsum ks v_0 = 0 -> wsum ks v_1 = 0 -> wsum ks v_2 = 0 -> wsum ks v_3 = 0 ->
    cwsum ks (fun q => rchain angle sL qL (qs ++ q :: rs) sR qR) = RtoC 0.
  Proof.
    intros H0 H1 H2 H3. unfold rchain.
    set (a1 := Bool.eqb angle (Nat.even (length qs))).
    set (w := apm (rmats (negb a1) rs) (spv qR (right_side (negb a1) (length rs)) sR)).
    assert (E : forall q, cv_dot (spv qL (left_side angle) sL)
                (apm (rmats angle (qs ++ q :: rs)) (spv qR (right_side angle (length (qs ++ q :: rs))) sR))
              = cv_dot (spv qL (left_side angle) sL) (apm (rmats angle qs) (cm_mul_cv (momm q (negb a1)) w))).
    { intros q. rewrite insert_mats, insert_side, apm_app, apm_cons. reflexivity. }
    transitivity (cwsum ks (fun q => cv_dot (spv qL (left_side angle) sL)
                     (apm (rmats angle qs) (cm_mul_cv (momm q (negb a1)) w)))).
    { clear - E. induction ks as [|[c q] ks IH]; cbn [cwsum fold_right fst snd]; [reflexivity|].
      rewrite E. f_equal. exact IH. }
    rewrite lin_insert.
    assert (Z : cm_mul_cv (momm (wmom ks) (negb a1)) w = cv_scale (num:=num) (RtoC 0) w).
    { unfold wmom. rewrite H0, H1, H2, H3. destruct a1; to_reals; ring. }
    rewrite Z, apm_scale, dot_rscale. ring.
  Qed.

  (** ** Spin sums *)
  Definition tr (M : mat) : C := Cplus (m00 M) (m11 M).
  Lemma dot_tr (l : vec) (M : mat) (r : vec) : cv_dot l (cm_mul_cv M r) = tr (cm_mul M (outer r l)).
  Proof. to_reals; ring. Qed.
  Lemma tr_add (M A B : mat) : Cplus (tr (cm_mul M A)) (tr (cm_mul M B)) = tr (cm_mul M (cm_add A B)).
  Proof. to_reals; ring. Qed.
  Lemma tr_mom (p q : rmom) b : tr (cm_mul (momm p b) (momm q (negb b))) = RtoC (2 * minkdot p q).
  Proof. unfold minkdot. destruct b; to_reals; ring. Qed.
  Lemma tr_scale (M A : mat) c : tr (cm_mul M (cm_scale (num:=num) A c)) = Cmult c (tr (cm_mul M A)).
  Proof. destruct c. to_reals; ring. Qed.

  Definition rsum (m : R) (u : bool) (f : option (Z * bool) -> C) : C :=
    if Reqb m 0 then f None else Cplus (f (Some ((-1)%Z, u))) (f (Some (1%Z, u))).
  Definition rsg (a : bool) (m : R) (u : bool) : R := if Reqb m 0 then 1 else csign a (Some (1%Z, u)).
  Lemma rsum_ext m u f g : (forall s, good_end m s -> f s = g s) -> rsum m u f = rsum m u g.
  Proof.
    intros H. unfold rsum. destruct (Reqb m 0) eqn:E.
    - apply H. apply Reqb_true, E.
    - apply Reqb_false in E. f_equal; apply H; (split; [exact E|]); [right|left]; reflexivity.
  Qed.
  Lemma rsum_scale m u c f : rsum m u (fun s => Cmult c (f s)) = Cmult c (rsum m u f).
  Proof. unfold rsum. destruct (Reqb m 0); ring. Qed.
  Lemma rsum_sign m u a f : rsum m u (fun s => Cmult (RtoC (csign a s)) (f s)) = Cmult (RtoC (rsg a m u)) (rsum m u f).
  Proof. unfold rsum, rsg. destruct (Reqb m 0); cbn [csign]; ring. Qed.
  Lemma csign_sq a s : csign a s * csign a s = 1.
  Proof. destruct s as [[j u]|]; cbn [csign]; [destruct (Bool.eqb a u)|]; ring. Qed.
  Lemma rsg_sq a m u : rsg a m u * rsg a m u = 1.
  Proof. unfold rsg. destruct (Reqb m 0); [ring|apply csign_sq]. Qed.

  Lemma insert_sum angle sL qL qs m q u rs sR qR : on_shell m q -> 0 <= v_0 q ->
    let a1 := Bool.eqb angle (Nat.even (length qs)) in
    rsum m u (fun s => Cmult (rchain angle sL qL qs s q) (rchain (negb a1) (flip s) q rs sR qR))
    = Cmult (RtoC (rsg a1 m u)) (rchain angle sL qL (qs ++ q :: rs) sR qR).
  Proof.
    intros H H0 a1. unfold rsum, rsg. destruct (Reqb m 0) eqn:E.
    - apply Reqb_true in E. subst m. cbn [flip]. unfold a1. rewrite insert_massless by assumption. ring.
    - apply (insert_massive angle sL qL qs m q u rs sR qR H H0).
  Qed.
  Lemma trace_sum a m q u p : on_shell m q -> 0 <= v_0 q ->
    rsum m u (fun s => rchain a s q [p] (flip s) q) = RtoC (rsg a m u * (2 * minkdot p q)).
  Proof.
    intros H H0. unfold rsum, rsg, rchain. cbn [rmats length flip]. rewrite !apm_cons. cbn [apm fold_right].
    rewrite right_side_r. cbn [Nat.even]. replace (Bool.eqb a false) with (negb a) by (destruct a; reflexivity).
    rewrite !dot_tr.
    destruct (Reqb m 0) eqn:E.
    - apply Reqb_true in E. subst m. pose proof (massless_mat q (negb a) H H0) as K.
      rewrite negb_involutive in K. rewrite K.
      replace a with (negb (negb a)) at 2 by apply negb_involutive. rewrite tr_mom. f_equal. ring.
    - rewrite tr_add. pose proof (complete_mat m q (negb a) a (negb u) H H0) as K.
      rewrite negb_involutive in K.
      replace (Bool.eqb (negb a) a) with false in K by (destruct a; reflexivity).
      rewrite K, tr_scale. rewrite tr_mom. cbn [csign]. rewrite <- RtoC_mult. f_equal.
      destruct a, u; reflexivity.
  Qed.
  Lemma mass_sum a m q u : m <> 0 -> on_shell m q -> 0 <= v_0 q ->
    rsum m u (fun s => rchain a s q [] (flip s) q) = RtoC (- csign a (Some (1%Z, u)) * (2 * Rabs m)).
  Proof.
    intros Hm H H0. unfold rsum, rchain. apply Reqb_false in Hm. rewrite Hm.
    cbn [rmats length flip apm fold_right]. rewrite right_side_r. cbn [Nat.even].
    replace (Bool.eqb a true) with a by (destruct a; reflexivity).
    pose proof (complete_mat m q a a (negb u) H H0) as K. rewrite negb_involutive, Bool.eqb_reflx in K.
    assert (D : forall l r : vec, cv_dot l r = tr (cm_mul (scalar_mat st eps 1) (outer r l))) by (intros; to_reals; ring).
    rewrite !D, tr_add, K. cbn [csign]. destruct a, u; cbn [Bool.eqb negb]; to_reals; ring.
  Qed.

  (** [ij]<ji>, <ij>[ji] *)
  Lemma pair_sum a mi qi u mj qj v :
    on_shell mi qi -> 0 <= v_0 qi -> on_shell mj qj -> 0 <= v_0 qj ->
    rsum mi u (fun s => rsum mj v (fun t =>
       Cmult (RtoC (csign a s * csign a t)) (Cmult (rchain a s qi [] t qj) (rchain (negb a) (flip t) qj [] (flip s) qi))))
    = RtoC (2 * minkdot qj qi).
  Proof.
    intros Hi Hi0 Hj Hj0.
    transitivity (rsum mi u (fun s => Cmult (RtoC (csign a s)) (rchain a s qi [qj] (flip s) qi))).
    { apply rsum_ext. intros s Gs.
      transitivity (rsum mj v (fun t => Cmult (RtoC (csign a s)) (Cmult (RtoC (csign a t))
         (Cmult (rchain a s qi [] t qj) (rchain (negb a) (flip t) qj [] (flip s) qi))))).
      { apply rsum_ext. intros t _. rewrite RtoC_mult. ring. }
      rewrite rsum_scale, rsum_sign. f_equal.
      pose proof (insert_sum a s qi [] mj qj v [] (flip s) qi Hj Hj0) as K.
      cbn [length Nat.even app] in K. replace (Bool.eqb a true) with a in K by (destruct a; reflexivity).
      rewrite K, Cmult_assoc, <- RtoC_mult, rsg_sq. ring. }
    rewrite rsum_sign, trace_sum, <- RtoC_mult by assumption. f_equal.
    rewrite <- Rmult_assoc, rsg_sq. ring.
  Qed.
  Lemma square_sum a mi qi u mj qj v :
    on_shell mi qi -> 0 <= v_0 qi -> on_shell mj qj -> 0 <= v_0 qj ->
    rsum mi u (fun s => rsum mj v (fun t => Cmult (rchain a s qi [] t qj) (Cconj (rchain a s qi [] t qj))))
    = RtoC (2 * minkdot qj qi).
  Proof.
    intros Hi Hi0 Hj Hj0. rewrite <- (pair_sum a mi qi u mj qj v) by assumption.
    apply rsum_ext. intros s Gs. apply rsum_ext. intros t Gt.
    rewrite (rchain_conj a mi s qi [] mj t qj Gs Gt). cbn [length Nat.even rev].
    replace (Bool.eqb a true) with a by (destruct a; reflexivity). ring.
  Qed.
  Lemma mixed_sum a mi qi u mj qj v : mi <> 0 -> mj <> 0 ->
    on_shell mi qi -> 0 <= v_0 qi -> on_shell mj qj -> 0 <= v_0 qj ->
    rsum mi u (fun s => rsum mj v (fun t => Cmult (rchain (negb a) s qi [] t qj) (Cconj (rchain a s qi [] t qj))))
    = RtoC (- 2 * Rabs mi * Rabs mj).
  Proof.
    intros Ni Nj Hi Hi0 Hj Hj0.
    transitivity (rsum mi u (fun s => Cmult (RtoC (csign a s)) (Cmult (RtoC (- Rabs mj)) (rchain (negb a) s qi [] (flip s) qi)))).
    { apply rsum_ext. intros s Gs.
      transitivity (rsum mj v (fun t => Cmult (RtoC (csign a s)) (Cmult (RtoC (csign a t))
         (Cmult (rchain (negb a) s qi [] t qj) (rchain (negb a) (flip t) qj [] (flip s) qi))))).
      { apply rsum_ext. intros t Gt. rewrite (rchain_conj a mi s qi [] mj t qj Gs Gt). cbn [length Nat.even rev].
        replace (Bool.eqb a true) with a by (destruct a; reflexivity). rewrite RtoC_mult. ring. }
      rewrite rsum_scale, rsum_sign. f_equal.
      pose proof (insert_mass (negb a) s qi [] mj qj v [] (flip s) qi Hj Hj0) as K.
      cbn [length Nat.even app] in K. replace (Bool.eqb (negb a) true) with (negb a) in K by (destruct a; reflexivity).
      unfold rsum, rsg. apply Reqb_false in Nj. rewrite Nj. cbn [flip]. rewrite K, Cmult_assoc, <- RtoC_mult. f_equal. f_equal.
      cbn [csign]. destruct a, v; cbn [Bool.eqb negb]; ring. }
    rewrite rsum_sign, rsum_scale, mass_sum, <- !RtoC_mult by assumption. f_equal.
    unfold rsg. apply Reqb_false in Ni. rewrite Ni. cbn [csign]. destruct a, u; cbn [Bool.eqb negb]; ring.
  Qed.

  (** results *)
  Lemma sum_args m u (f : option (Z * bool) -> outcome C) g :
    (forall s, good_end m s -> f s = Ok (g s)) -> sum_over (spin_args m u) f = Ok (rsum m u g).
  Proof.
    intros H. unfold sum_over, spin_args, rsum. destruct (Reqb m 0) eqn:E.
    - cbn [map osum]. rewrite H by (apply Reqb_true, E). cbn [obind]. f_equal. ring.
    - apply Reqb_false in E. cbn [map osum]. rewrite !H by (split; [exact E|]; [right + left]; reflexivity).
      cbn [obind]. f_equal. ring.
  Qed.
End ChainReal.
