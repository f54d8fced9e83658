(** * The sums of tests/sproduct.cpp over the exact reals *)
From Coq Require Import Reals Lra Lia.
From Coquelicot Require Import Complex.
From Verif Require Import Base Scalar Linear Particle ParticleProofs RealNum SpecSpinor ParticleReal
  SpinorReal Ready ParticleClaims SpecSproduct SpecChain ChainReal.
Open Scope R_scope.

Section Sums.
  Variables (st : bool) (eps : R).
  Notation num := (RN st eps).
  Notation rmom := (vec4 R).
  Notation vec := (cvector num).
  Notation mat := (cmatrix num).
  Notation momm q u := (cmatrix_of_mom (num:=num) q u).
  Notation spv := (spv st eps).
  Notation rchain := (rchain st eps).
  Notation rsum := (rsum).
  Notation tr := (tr st eps).

  Definition prodm (Ms : list mat) : mat := fold_right cm_mul (scalar_mat st eps 1) Ms.
  Lemma prodm_apm Ms (v : vec) : cm_mul_cv (prodm Ms) v = apm st eps Ms v.
  Proof.
    induction Ms as [|M Ms IH]; cbn [prodm fold_right apm]; [to_reals; ring|].
    fold (prodm Ms). rewrite mm_v, IH. reflexivity.
  Qed.
  (** sums of matrices over the states of an end *)
  Definition msum (m : R) (f : option (Z * bool) -> mat) : mat :=
    if Reqb m 0 then f None else cm_add (f (Some ((-1)%Z, true))) (f (Some (1%Z, true))).
  Definition right_sum a1 a2 m q : mat :=
    msum m (fun t => outer (spv q (rside a1) t) (cv_conj (spv q (rside a2) t))).
  Definition left_sum b1 b2 m q : mat :=
    msum m (fun s => outer (cv_conj (spv q (left_side b2) s)) (spv q (left_side b1) s)).

  Lemma outer_scale_r (x y : vec) c : outer x (cv_scale (num:=num) c y) = cm_scale (num:=num) (outer x y) c.
  Proof. destruct c. to_reals; ring. Qed.
  Lemma outer_scale_l (x y : vec) c : outer (cv_scale (num:=num) c x) y = cm_scale (num:=num) (outer x y) c.
  Proof. destruct c. to_reals; ring. Qed.
  Lemma scale_add (A B : mat) c : cm_add (cm_scale (num:=num) A c) (cm_scale (num:=num) B c) = cm_scale (num:=num) (cm_add A B) c.
  Proof. destruct c. to_reals; ring. Qed.
  Lemma scale_scale (A : mat) (c d : R) : cm_scale (num:=num) (cm_scale (num:=num) A (RtoC c)) (RtoC d) = cm_scale (num:=num) A (RtoC (c * d)).
  Proof. to_reals; ring. Qed.
  Lemma scale_1 (A : mat) : cm_scale (num:=num) A (RtoC 1) = A.
  Proof. to_reals; ring. Qed.
  Lemma scalar_scale (c d : R) : cm_scale (num:=num) (scalar_mat st eps c) (RtoC d) = scalar_mat st eps (c * d).
  Proof. to_reals; ring. Qed.

  Lemma good_m1 m : m <> 0 -> good_end m (Some ((-1)%Z, true)).
  Proof. intros H. split; [exact H|right; reflexivity]. Qed.
  Lemma good_p1 m : m <> 0 -> good_end m (Some (1%Z, true)).
  Proof. intros H. split; [exact H|left; reflexivity]. Qed.
  Lemma other_r a : other (rside a) = left_side (negb a).
  Proof. destruct a; reflexivity. Qed.
  Lemma other_l a : other (left_side a) = rside (negb a).
  Proof. destruct a; reflexivity. Qed.
  Lemma is_r a : is_angle (rside a) = a.
  Proof. destruct a; reflexivity. Qed.
  Lemma is_l a : is_angle (left_side a) = a.
  Proof. destruct a; reflexivity. Qed.

  Lemma right_sum_eq a1 a2 m q : on_shell m q -> 0 <= v_0 q -> (m = 0 -> a1 = a2) ->
    right_sum a1 a2 m q = if Bool.eqb a1 a2 then momm q (negb a1) else scalar_mat st eps (- Rabs m).
  Proof.
    intros H H0 Hm. unfold right_sum, msum. destruct (Reqb m 0) eqn:E.
    - apply Reqb_true in E. subst m. specialize (Hm eq_refl). subst a2.
      rewrite (spv_conj st eps 0 q (rside a1) None eq_refl), other_r. cbn [csign flip].
      rewrite outer_scale_r, scale_1, Bool.eqb_reflx. apply massless_mat; assumption.
    - apply Reqb_false in E.
      rewrite (spv_conj st eps m q (rside a2) _ (good_m1 m E)), (spv_conj st eps m q (rside a2) _ (good_p1 m E)), other_r, is_r.
      cbn [csign flip negb]. rewrite !outer_scale_r, scale_add.
      pose proof (complete_mat st eps m q a1 (negb a2) true H H0) as K. cbn [negb] in K. rewrite K. cbn [csign].
      destruct a1, a2; cbn [negb Bool.eqb]; rewrite ?scale_scale, ?scalar_scale;
        try (replace (-1 * -1) with 1 by ring); try (replace (1 * 1) with 1 by ring); rewrite ?scale_1; try reflexivity; f_equal; ring.
  Qed.
  Lemma left_sum_eq b1 b2 m q : on_shell m q -> 0 <= v_0 q -> (m = 0 -> b1 = b2) ->
    left_sum b1 b2 m q = if Bool.eqb b1 b2 then momm q b1 else scalar_mat st eps (Rabs m).
  Proof.
    intros H H0 Hm. unfold left_sum, msum. destruct (Reqb m 0) eqn:E.
    - apply Reqb_true in E. subst m. specialize (Hm eq_refl). subst b2.
      rewrite (spv_conj st eps 0 q (left_side b1) None eq_refl), other_l. cbn [csign flip].
      rewrite outer_scale_l, scale_1, Bool.eqb_reflx. pose proof (massless_mat st eps q (negb b1) H H0) as K.
      rewrite negb_involutive in K. exact K.
    - apply Reqb_false in E.
      rewrite (spv_conj st eps m q (left_side b2) _ (good_m1 m E)), (spv_conj st eps m q (left_side b2) _ (good_p1 m E)), other_l, is_l.
      cbn [csign flip negb]. rewrite !outer_scale_l, scale_add.
      pose proof (complete_mat st eps m q (negb b2) b1 false H H0) as K. cbn [negb] in K. rewrite K. cbn [csign].
      destruct b1, b2; cbn [negb Bool.eqb]; rewrite ?scale_scale, ?scalar_scale;
        try (replace (-1 * -1) with 1 by ring); try (replace (1 * 1) with 1 by ring); rewrite ?scale_1; try reflexivity; f_equal; ring.
  Qed.
  (** a massless end with the wrong bracket *)
  Lemma right_sum_0 a q c : on_shell 0 q -> 0 <= v_0 q -> tr (cm_mul (right_sum a (negb a) 0 q) (scalar_mat st eps c)) = RtoC 0.
  Proof.
    intros H H0. unfold right_sum, msum. rewrite Reqb_refl, (spv_conj st eps 0 q (rside (negb a)) None eq_refl), other_r. cbn [csign flip].
    rewrite negb_involutive. destruct a; cbn [rside left_side];
      rewrite ?spv_langle, ?spv_rsquare; generalize (spv q RAngle None) (spv q LSquare None); intros x y; to_reals; ring.
  Qed.
  Lemma left_sum_0 a q c : on_shell 0 q -> 0 <= v_0 q -> tr (cm_mul (scalar_mat st eps c) (left_sum a (negb a) 0 q)) = RtoC 0.
  Proof.
    intros H H0. unfold left_sum, msum. rewrite Reqb_refl, (spv_conj st eps 0 q (left_side (negb a)) None eq_refl), other_l. cbn [csign flip].
    rewrite negb_involutive. destruct a; cbn [rside left_side];
      rewrite ?spv_langle, ?spv_rsquare; generalize (spv q RAngle None) (spv q LSquare None); intros x y; to_reals; ring.
  Qed.

  (** the sum over both ends is a trace *)
  Definition pair_total a qs b rs m1 q1 m2 q2 : C :=
    rsum m1 true (fun s => rsum m2 true (fun t => Cmult (rchain a s q1 qs t q2) (Cconj (rchain b s q1 rs t q2)))).
  Lemma madd_apm Ms (A B : mat) Ns (l v : vec) :
    Cplus (cv_dot l (apm st eps Ms (cm_mul_cv A (apm st eps Ns v)))) (cv_dot l (apm st eps Ms (cm_mul_cv B (apm st eps Ns v))))
    = cv_dot l (apm st eps Ms (cm_mul_cv (cm_add A B) (apm st eps Ns v))).
  Proof. rewrite madd_v, apm_vadd, dot_vadd. reflexivity. Qed.
  Lemma pair_trace a qs b rs m1 q1 m2 q2 :
    pair_total a qs b rs m1 q1 m2 q2 =
    tr (cm_mul (prodm (rmats st eps a qs ++
                  right_sum (Bool.eqb a (Nat.even (length qs))) (Bool.eqb b (Nat.even (length rs))) m2 q2 :: rev (rmats st eps b rs)))
               (left_sum a b m1 q1)).
  Proof.
    set (R2 := right_sum _ _ m2 q2).
    assert (T1 : forall s, rsum m2 true (fun t => Cmult (rchain a s q1 qs t q2) (Cconj (rchain b s q1 rs t q2))) =
      cv_dot (spv q1 (left_side a) s) (cm_mul_cv (prodm (rmats st eps a qs ++ R2 :: rev (rmats st eps b rs))) (cv_conj (spv q1 (left_side b) s)))).
    { intros s. rewrite prodm_apm, apm_app, apm_cons. unfold R2, right_sum, msum, rsum, ChainReal.rchain.
      rewrite !chain_conj, !right_side_r. destruct (Reqb m2 0).
      - rewrite outer_insert. reflexivity.
      - rewrite !outer_insert, madd_apm. reflexivity. }
    unfold pair_total, rsum at 1. rewrite !T1, !dot_tr. unfold left_sum, msum. destruct (Reqb m1 0); [reflexivity|].
    apply tr_add.
  Qed.
  Notation dt := minkdot.

  (** ** The eight identities *)
  Section Identities.
    Variables (m1 m2 : R) (q1 q2 q3 q4 q5 : rmom).
    Hypothesis S1 : on_shell m1 q1. Hypothesis P1 : 0 <= v_0 q1.
    Hypothesis S2 : on_shell m2 q2. Hypothesis P2 : 0 <= v_0 q2.
    Ltac both_sums := rewrite pair_trace; cbn [length Nat.even Bool.eqb rmats negb app rev].
    Lemma id1 : fst (pair_total false [] false [] m1 q1 m2 q2) = 2 * dt q1 q2.
    Proof.
      both_sums. rewrite right_sum_eq, left_sum_eq by auto. cbn [Bool.eqb negb]. unfold minkdot. to_reals. ring.
    Qed.
    Lemma id2 a : ~ (m1 = 0 /\ m2 = 0) -> fst (pair_total a [] (negb a) [] m1 q1 m2 q2) = - 2 * Rabs m1 * Rabs m2.
    Proof.
      intros NZ. destruct (Req_dec m2 0) as [Z2|N2].
      - subst m2. rewrite Rabs_R0.
        assert (N1 : m1 <> 0) by (intros E; apply NZ; auto).
        rewrite pair_trace. cbn [length Nat.even rmats app rev prodm fold_right].
        rewrite (left_sum_eq a (negb a)) by (auto; intros; contradiction).
        replace (Bool.eqb a (negb a)) with false by (destruct a; reflexivity). cbn [negb].
        replace (Bool.eqb a true) with a by (destruct a; reflexivity).
        replace (Bool.eqb (negb a) true) with (negb a) by (destruct a; reflexivity).
        pose proof (right_sum_0 a q2 (Rabs m1) S2 P2) as K.
        replace (cm_mul (right_sum a (negb a) 0 q2) (scalar_mat st eps 1)) with (right_sum a (negb a) 0 q2) by (to_reals; ring).
        rewrite K. cbn. ring.
      - rewrite pair_trace. cbn [length Nat.even rmats app rev prodm fold_right].
        rewrite right_sum_eq by (auto; intros; contradiction).
        replace (Bool.eqb (Bool.eqb a true) (Bool.eqb (negb a) true)) with false by (destruct a; reflexivity).
        destruct (Req_dec m1 0) as [Z1|N1].
        + subst m1. replace (cm_mul (scalar_mat st eps (- Rabs m2)) (scalar_mat st eps 1)) with (scalar_mat st eps (- Rabs m2)) by (to_reals; ring).
          rewrite (left_sum_0 a q1 _ S1 P1), Rabs_R0. cbn. ring.
        + rewrite left_sum_eq by (auto; intros; contradiction).
          replace (Bool.eqb a (negb a)) with false by (destruct a; reflexivity). to_reals. ring.
    Qed.
    Ltac finish := cbn [Bool.eqb negb]; unfold minkdot; to_reals; ring.
    Lemma id3 : m1 <> 0 -> fst (pair_total false [] true [q3] m1 q1 m2 q2) = 2 * Rabs m1 * dt q2 q3.
    Proof. intros N1. both_sums. rewrite right_sum_eq, left_sum_eq by (auto; intros; contradiction). finish. Qed.
    Lemma id4 : m1 <> 0 -> m2 <> 0 -> fst (pair_total false [] true [q4; q3] m1 q1 m2 q2) = - 2 * Rabs m1 * Rabs m2 * dt q3 q4.
    Proof. intros N1 N2. both_sums. rewrite right_sum_eq, left_sum_eq by (auto; intros; contradiction). finish. Qed.
    Lemma id5 : fst (pair_total false [] false [q4; q3] m1 q1 m2 q2)
      = 2 * dt q1 q2 * dt q3 q4 - 2 * dt q1 q3 * dt q2 q4 + 2 * dt q1 q4 * dt q2 q3.
    Proof. both_sums. rewrite right_sum_eq, left_sum_eq by auto. finish. Qed.
    Lemma id6 : m1 <> 0 -> m2 <> 0 -> fst (pair_total false [q4] true [q3] m1 q1 m2 q2) = - 2 * Rabs m1 * Rabs m2 * dt q3 q4.
    Proof. intros N1 N2. both_sums. rewrite right_sum_eq, left_sum_eq by (auto; intros; contradiction). finish. Qed.
    Lemma id7 : fst (pair_total false [q4] false [q3] m1 q1 m2 q2)
      = 2 * dt q1 q4 * dt q2 q3 - 2 * dt q1 q2 * dt q3 q4 + 2 * dt q1 q3 * dt q2 q4.
    Proof. both_sums. rewrite right_sum_eq, left_sum_eq by auto. finish. Qed.
    Lemma id8 : m2 <> 0 -> fst (pair_total false [q4] false [q3; q5] m1 q1 m2 q2)
      = - 2 * Rabs m2 * (dt q1 q4 * dt q3 q5 - dt q1 q5 * dt q3 q4 + dt q1 q3 * dt q4 q5).
    Proof. intros N2. both_sums. rewrite right_sum_eq, left_sum_eq by (auto; intros; contradiction). finish. Qed.
  End Identities.
End Sums.
