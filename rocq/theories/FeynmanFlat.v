(** * Four fermions: amplitudes of the model as tables

    An amplitude of a class is flattened into a list of products of two spinor products over
    a propagator, with coefficients in the parameters of the constructor. *)
From Coq Require Import Reals QArith Qreals String Ascii Lra Lia.
From Coquelicot Require Import Complex.
From Verif Require Import Base Scalar RealNum Linear Integers Particle Sproduct Propagator Process
  ParticleProofs SpecSpinor ParticleReal SpinorReal Ready ParticleClaims SpecSproduct SpecChain ChainReal Lorentz
  WorldProofs Lang LangFrame Pure PureProofs ReadOnly Sym SymEq SMNames SMRun SMTwins SMMasses SMAll SMChecks
  SMAmp2 SpinColour Poly Covariant CovReal PropsWidth Feynman FeynmanAlg FeynmanLegs.
Close Scope Q_scope.
Close Scope R_scope.
Open Scope nat_scope.

Record term : Type := Tm { t_co : sT; t_leafs : list leaf2; t_dens : list (id * nat) }.
Section Flat.
  Variable ps : list id.
  Variable pat : nat -> bool.
  Variable lb : nat -> option bool.
  Definition lab_eqb (a b : option bool) : bool := match a, b with Some x, Some y => Bool.eqb x y | None, None => true | _, _ => false end.
  Definition den_of (y : sC) : option (id * nat) :=
    find (fun rk => eqC y (den_in (fst rk) (snd rk))) (flat_map (fun r => [(r, 0); (r, 1); (r, 2)]) ps).
  (** a propagator, or a number times one *)
  Definition denom (y : sC) : option (sT * (id * nat)) :=
    match den_of y with
    | Some d => Some (TInt 1, d)
    | None => match y with
              | CTC Mul t z => match den_of z with Some d => Some (t, d) | None => None end
              | _ => None end
    end.
  Definition tmul (a b : term) : term := Tm (TOp Mul (t_co a) (t_co b)) (t_leafs a ++ t_leafs b) (t_dens a ++ t_dens b).
  Definition tneg (t : term) : term := Tm (TNeg (t_co t)) (t_leafs t) (t_dens t).
  Definition tscal (k : sT) (t : term) : term := Tm (TOp Mul k (t_co t)) (t_leafs t) (t_dens t).
  Definition tquot (k : sT) (d : list (id * nat)) (t : term) : term := Tm (TOp Div (t_co t) k) (t_leafs t) (d ++ t_dens t).
  Fixpoint flat (x : sC) : option (list term) :=
    match x with
    | CProd angle sL dL SNil sR dR =>
        match lab sL, leg_of dL, lab sR, leg_of dR with
        | Some a, Some L, Some b, Some R =>
            if suits pat a L && suits pat b R && lab_eqb a (lb L) && lab_eqb b (lb R) then Some [Tm (TInt 1) [Lf angle L R] []] else None
        | _, _, _, _ => None end
    | CMk (TInt 0) (TInt 0) => Some []
    | COp Add x y => match flat x, flat y with Some a, Some b => Some (a ++ b) | _, _ => None end
    | COp Sub x y => match flat x, flat y with Some a, Some b => Some (a ++ map tneg b) | _, _ => None end
    | COp Mul x y => match flat x, flat y with Some a, Some b => Some (flat_map (fun t => map (tmul t) b) a) | _, _ => None end
    | COp Div x y => match flat x, denom y with Some a, Some (k, d) => Some (map (tquot k [d]) a) | _, _ => None end
    | CTC Div k y => match denom y with Some (k', d) => Some [Tm (TOp Div k k') [] [d]] | _ => None end
    | CNeg x => match flat x with Some a => Some (map tneg a) | _ => None end
    | CTC Mul k x => match flat x with Some a => Some (map (tscal k) a) | _ => None end
    | CCT Mul x k => match flat x with Some a => Some (map (tscal k) a) | _ => None end
    | CCT Div x k => match flat x with Some a => Some (map (tquot k []) a) | _ => None end
    | _ => None
    end.
End Flat.

Section Sound.
  Variables (st : bool) (eps : R).
  Notation num := (RN st eps).
  Variable rT : tatom -> R.
  Variable rC : id -> list Z -> C.
  Variable q : nat -> vec4 R.
  Variable pat : nat -> bool.
  Hypothesis HM : forall p mu, (p < 4)%nat -> rT (AMom p mu) = comp (num:=num) (q p) mu.
  Hypothesis HP : forall p, (p < 4)%nat -> pat p = Reqb (rT (AMass p)) 0.
  Hypothesis HA : forall p, (p < 4)%nat -> fst (particle_new (num:=num) (fun _ => 0%R) (q p) (rT (AMass p))) = Ok tt.
  Variable ps : list id.
  Variable lb : nat -> option bool.
  Notation dT := (denT (num:=num) rT rC : sT -> R).
  Notation dC := (denC (num:=num) rT rC : sC -> C).
  Let E (k : nat) : ends2 := end2 st eps (q k) (lb k).
  Open Scope C_scope.
  Definition lprod (l : list leaf2) : C := fold_right (fun f x => lval E f * x) (RtoC 1) l.
  Definition dprod (l : list (id * nat)) : C := fold_right (fun d x => / dC (den_in (fst d) (snd d)) * x) (RtoC 1) l.
  Definition tval (t : term) : C := RtoC (dT (t_co t)) * lprod (t_leafs t) * dprod (t_dens t).
  Lemma lprod_app a b : lprod (a ++ b) = lprod a * lprod b.
  Proof. unfold lprod. induction a as [|x a IH]; cbn [app fold_right]; [|rewrite IH]; ring. Qed.
  Lemma dprod_app a b : dprod (a ++ b) = dprod a * dprod b.
  Proof. unfold dprod. induction a as [|x a IH]; cbn [app fold_right]; [|rewrite IH]; ring. Qed.
  Lemma tval_mul a b : tval (tmul a b) = tval a * tval b.
  Proof.
    unfold tval, tmul. cbn [t_co t_leafs t_dens]. rewrite lprod_app, dprod_app.
    change (dT (TOp Mul (t_co a) (t_co b))) with (dT (t_co a) * dT (t_co b))%R. rewrite RtoC_mult. ring.
  Qed.
  Lemma tval_neg a : tval (tneg a) = - tval a.
  Proof. unfold tval, tneg. cbn [t_co t_leafs t_dens]. change (dT (TNeg (t_co a))) with (- dT (t_co a))%R. rewrite RtoC_opp. ring. Qed.
  Lemma tval_scal k a : tval (tscal k a) = RtoC (dT k) * tval a.
  Proof. unfold tval, tscal. cbn [t_co t_leafs t_dens]. change (dT (TOp Mul k (t_co a))) with (dT k * dT (t_co a))%R. rewrite RtoC_mult. ring. Qed.
  Lemma tval_quot k d a : tval (tquot k d a) = tval a * (/ RtoC (dT k) * dprod d).
  Proof.
    unfold tval, tquot. cbn [t_co t_leafs t_dens]. rewrite dprod_app. change (dT (TOp Div (t_co a) k)) with (dT (t_co a) * / dT k)%R.
    rewrite RtoC_mult, RtoC_invR. ring.
  Qed.
  Lemma Csum_neg l : Csum tval (map tneg l) = - Csum tval l.
  Proof. induction l as [|x l IH]; cbn [Csum map]; [ring|]. rewrite IH, tval_neg. ring. Qed.
  Lemma den_of_ok y d : den_of ps y = Some d -> y = den_in (fst d) (snd d).
  Proof. unfold den_of. intros H. apply find_some in H as [_ H]. apply eqC_eq in H. exact H. Qed.
  Lemma denom_ok y k d : denom ps y = Some (k, d) -> / dC y = / RtoC (dT k) * dprod [d].
  Proof.
    unfold denom. destruct (den_of ps y) as [d'|] eqn:E0.
    - intros [= <- <-]. rewrite (den_of_ok _ _ E0). unfold dprod. cbn [fold_right]. change (dT (TInt 1)) with 1%R.
      replace (/ RtoC 1) with (RtoC 1) by (rewrite <- RtoC_invR; f_equal; field). ring.
    - destruct y; try discriminate. destruct a; try discriminate. destruct (den_of ps y) as [d'|] eqn:E1; [|discriminate]. intros [= <- <-].
      pose proof (den_of_ok _ _ E1) as ->.
      change (dC (CTC Mul x (den_in (fst d') (snd d')))) with (RtoC (dT x) * dC (den_in (fst d') (snd d'))). unfold dprod. cbn [fold_right].
      rewrite Cinv_mult_any. ring.
  Qed.
  Lemma lab_eqb_eq a b : lab_eqb a b = true -> a = b.
  Proof. destruct a as [[]|], b as [[]|]; cbn; intros H; try discriminate H; reflexivity. Qed.
  Lemma flat_ok x : forall l, flat ps pat lb x = Some l -> dC x = Csum tval l.
  Proof.
    induction x as [x y|a x IHx y IHy|x IHx|x IHx|a x IHx y|a x y IHy|angle sL dL ds sR dR| | | |]; intros l H; cbn [flat] in H; try discriminate H.
    - destruct x as [[]| | | | | | | | |]; try discriminate H. destruct y as [[]| | | | | | | | |]; try discriminate H. injection H as <-. reflexivity.
    - destruct a.
      + destruct (flat ps pat lb x) as [lx|]; [|discriminate H]. destruct (flat ps pat lb y) as [ly|]; [|discriminate H]. injection H as <-.
        rewrite Csum_app, <- (IHx lx eq_refl), <- (IHy ly eq_refl). reflexivity.
      + destruct (flat ps pat lb x) as [lx|]; [|discriminate H]. destruct (flat ps pat lb y) as [ly|]; [|discriminate H]. injection H as <-.
        rewrite Csum_app, Csum_neg, <- (IHx lx eq_refl), <- (IHy ly eq_refl). change (dC (COp Sub x y)) with (dC x - dC y). ring.
      + destruct (flat ps pat lb x) as [lx|]; [|discriminate H]. destruct (flat ps pat lb y) as [ly|]; [|discriminate H]. injection H as <-.
        rewrite Csum_flat_map, (Csum_ext _ (fun t => dC y * tval t)).
        2: { intros t _. rewrite Csum_map, (Csum_ext _ (fun u => tval t * tval u)) by (intros u _; apply tval_mul).
             rewrite Csum_scal, <- (IHy ly eq_refl). ring. }
        rewrite Csum_scal, <- (IHx lx eq_refl). change (dC (COp Mul x y)) with (dC x * dC y). ring.
      + destruct (flat ps pat lb x) as [lx|]; [|discriminate H]. destruct (denom ps y) as [[k d]|] eqn:ED; [|discriminate H]. injection H as <-.
        rewrite Csum_map, (Csum_ext _ (fun t => / dC y * tval t)) by (intros t _; cbv beta; rewrite tval_quot, (denom_ok _ _ _ ED); ring).
        rewrite Csum_scal, <- (IHx lx eq_refl). change (dC (COp Div x y)) with (dC x * / dC y). ring.
    - destruct (flat ps pat lb x) as [lx|]; [|discriminate H]. injection H as <-.
      rewrite Csum_neg, <- (IHx lx eq_refl). reflexivity.
    - destruct a; try discriminate H.
      + destruct (flat ps pat lb x) as [lx|]; [|discriminate H]. injection H as <-.
        rewrite Csum_map, (Csum_ext _ (fun t => RtoC (dT y) * tval t)) by (intros t _; apply tval_scal).
        rewrite Csum_scal, <- (IHx lx eq_refl). change (dC (CCT Mul x y)) with (dC x * RtoC (dT y)). ring.
      + destruct (flat ps pat lb x) as [lx|]; [|discriminate H]. injection H as <-.
        rewrite Csum_map, (Csum_ext _ (fun t => / RtoC (dT y) * tval t)) by (intros t _; cbv beta; rewrite tval_quot; cbn [dprod fold_right]; ring).
        rewrite Csum_scal, <- (IHx lx eq_refl). change (dC (CCT Div x y)) with (dC x * / RtoC (dT y)). ring.
    - destruct a; try discriminate H.
      + destruct (flat ps pat lb y) as [ly|]; [|discriminate H]. injection H as <-.
        rewrite Csum_map, (Csum_ext _ (fun t => RtoC (dT x) * tval t)) by (intros t _; apply tval_scal).
        rewrite Csum_scal, <- (IHy ly eq_refl). change (dC (CTC Mul x y)) with (RtoC (dT x) * dC y). ring.
      + destruct (denom ps y) as [[k d]|] eqn:ED; [|discriminate H]. injection H as <-. cbn [Csum].
        change (dC (CTC Div x y)) with (RtoC (dT x) * / dC y). rewrite (denom_ok _ _ _ ED). unfold tval. cbn [t_co t_leafs t_dens].
        change (dT (TOp Div x k)) with (dT x * / dT k)%R. rewrite RtoC_mult, RtoC_invR. unfold lprod. cbn [fold_right]. ring.
    - destruct ds; [|discriminate H].
      destruct (lab sL) as [la|] eqn:LL; [|discriminate H]. destruct (leg_of dL) as [L|] eqn:EL; [|discriminate H].
      destruct (lab sR) as [lr|] eqn:LR; [|discriminate H]. destruct (leg_of dR) as [R|] eqn:ER; [|discriminate H].
      destruct (suits pat la L) eqn:S1; [|discriminate H]. destruct (suits pat lr R) eqn:S2; [|discriminate H].
      destruct (lab_eqb la (lb L)) eqn:B1; [|discriminate H]. destruct (lab_eqb lr (lb R)) eqn:B2; [|discriminate H]. injection H as <-.
      apply lab_eqb_eq in B1, B2. subst la lr.
      pose proof (ev_den st eps rT rC q pat HM HP HA [] (fun _ _ _ _ _ _ => []) (CProd angle sL dL SNil sR dR)) as K.
      cbn [norm ev legs_in] in K. rewrite LL, EL, LR, ER, S1, S2 in K. rewrite <- (K _ eq_refl), leafc_two.
      cbn [Csum]. unfold tval, lprod, dprod, lval. cbn [t_co t_leafs t_dens fold_right f_angle f_L f_R]. change (dT (TInt 1)) with 1%R. unfold E. ring.
  Qed.
End Sound.
