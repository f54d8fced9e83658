(** * Amplitudes at transformed momenta

    Lemmas behind C47, used in proofs only: an amplitude that passes the checks of
    Covariant.v at momenta and at the momenta transformed. *)
From Coq Require Import Reals QArith Qreals String Ascii Lra Lia.
From Coquelicot Require Import Complex.
From Verif Require Import Base Scalar RealNum Linear Integers Particle Sproduct Propagator Process
  ParticleProofs SpecSpinor ParticleReal SpinorReal Ready ParticleClaims SpecSproduct SpecChain ChainReal Utilities UtilReal Lorentz
  Lang Pure PureProofs Sym SymEq SMNames SMRun SMAmp2 SpinColour Poly Covariant SpinRot CovReal.
Close Scope Q_scope.
Close Scope R_scope.
Open Scope nat_scope.

Lemma four_eqb_eq a b : four_eqb a b = true -> a = b.
Proof.
  destruct a as [[[a0 a1] a2] a3], b as [[[b0 b1] b2] b3]. unfold four_eqb. intros H.
  apply andb_prop in H as [H H3]. apply andb_prop in H as [H H2]. apply andb_prop in H as [H0 H1].
  apply Z.eqb_eq in H0, H1, H2, H3. subst. reflexivity.
Qed.
Lemma same4_eq f x : same4 f x = true -> x = Some f.
Proof. destruct x as [g|]; cbn; [|discriminate]. intros H. apply four_eqb_eq in H. subst. reflexivity. Qed.
Lemma dedup_head a : forall l tab, nth_error tab 0 = Some a -> nth_error (dedup l tab) 0 = Some a.
Proof.
  induction l as [|x l IH]; cbn [dedup]; intros tab H; [exact H|]. apply IH.
  destruct (find_coef x tab 1); [exact H|]. destruct tab as [|y tab]; [discriminate H|exact H].
Qed.
Lemma table_head y : nth_error (table y) 0 = Some (KTinv root2).
Proof. apply dedup_head. reflexivity. Qed.

(** Phases to an integer power. *)
Definition cz (l : C) (k : Z) : C := Cmult (Cpow l (Z.to_nat k)) (Cpow (Cconj l) (Z.to_nat (- k))).
Lemma Cpow_add l a b : Cpow l (a + b) = Cmult (Cpow l a) (Cpow l b).
Proof. induction a as [|a IH]; cbn [Cpow Nat.add]; [ring|rewrite IH; ring]. Qed.
Lemma Cpow_unit l k : Cmult l (Cconj l) = RtoC 1 -> Cmult (Cpow l k) (Cpow (Cconj l) k) = RtoC 1.
Proof.
  intros H. induction k as [|k IH]; cbn [Cpow]; [ring|].
  transitivity (Cmult (Cmult l (Cconj l)) (Cmult (Cpow l k) (Cpow (Cconj l) k))); [ring|]. rewrite H, IH. ring.
Qed.
Lemma cz_sub l a b : Cmult l (Cconj l) = RtoC 1 -> cz l (Z.of_nat a - Z.of_nat b) = Cmult (Cpow l a) (Cpow (Cconj l) b).
Proof.
  intros H. unfold cz. destruct (le_ge_dec a b) as [K|K].
  - replace (Z.to_nat (Z.of_nat a - Z.of_nat b)) with 0 by lia. replace (Z.to_nat (- (Z.of_nat a - Z.of_nat b))) with (b - a) by lia.
    replace b with (a + (b - a)) at 2 by lia. rewrite Cpow_add. cbn [Cpow].
    transitivity (Cmult (Cmult (Cpow l a) (Cpow (Cconj l) a)) (Cpow (Cconj l) (b - a))); [|ring]. rewrite (Cpow_unit l a H). reflexivity.
  - replace (Z.to_nat (Z.of_nat a - Z.of_nat b)) with (a - b) by lia. replace (Z.to_nat (- (Z.of_nat a - Z.of_nat b))) with 0 by lia.
    replace a with (a - b + b) at 2 by lia. rewrite Cpow_add. cbn [Cpow].
    transitivity (Cmult (Cpow l (a - b)) (Cmult (Cpow l b) (Cpow (Cconj l) b))); [|ring]. rewrite (Cpow_unit l b H). reflexivity.
Qed.
Lemma cz_add l a b : Cmult l (Cconj l) = RtoC 1 -> cz l (a + b) = Cmult (cz l a) (cz l b).
Proof.
  intros H. replace (a + b)%Z with (Z.of_nat (Z.to_nat a + Z.to_nat b) - Z.of_nat (Z.to_nat (- a) + Z.to_nat (- b)))%Z by lia.
  rewrite (cz_sub l _ _ H), !Cpow_add. unfold cz. ring.
Qed.
Lemma conj_mul (a b : C) : Cconj (Cmult a b) = Cmult (Cconj a) (Cconj b).
Proof. destruct a, b. unfold Cconj, Cmult. cbn. f_equal; ring. Qed.
Lemma conj_conj (a : C) : Cconj (Cconj a) = a.
Proof. destruct a. unfold Cconj. cbn. f_equal. ring. Qed.
Lemma conj_pow l k : Cconj (Cpow l k) = Cpow (Cconj l) k.
Proof. induction k as [|k IH]; cbn [Cpow]; [unfold Cconj, RtoC; cbn; f_equal; ring|]. rewrite conj_mul, IH. reflexivity. Qed.
Lemma cz_unit l k : Cmult l (Cconj l) = RtoC 1 -> Cmult (cz l k) (Cconj (cz l k)) = RtoC 1.
Proof.
  intros H. unfold cz. rewrite conj_mul, !conj_pow, conj_conj.
  transitivity (Cmult (Cmult (Cpow l (Z.to_nat k)) (Cpow (Cconj l) (Z.to_nat k))) (Cmult (Cpow l (Z.to_nat (- k))) (Cpow (Cconj l) (Z.to_nat (- k))))); [ring|].
  rewrite !(Cpow_unit l _ H). ring.
Qed.
Lemma cz_0 l : cz l 0 = RtoC 1.
Proof. unfold cz. cbn. ring. Qed.

Section Move.
  Variables (st : bool) (eps : R).
  Notation num := (RN st eps).
  Notation rmom := (vec4 R).
  Variable L : cmatrix num.
  Hypothesis HL : detm st eps L = RtoC 1.
  Variables rT rT' : tatom -> R.
  Variables rC rC' : id -> list Z -> C.
  Variables q q' : nat -> rmom.
  Variable pat : nat -> bool.
  Notation dT := (denT (num:=num) rT rC : sT -> R).
  Notation dC := (denC (num:=num) rT rC : sC -> C).
  Notation dT' := (denT (num:=num) rT' rC' : sT -> R).
  Notation dC' := (denC (num:=num) rT' rC' : sC -> C).
  Hypothesis HM : forall p mu, p < 4 -> rT (AMom p mu) = comp (num:=num) (q p) mu.
  Hypothesis HM' : forall p mu, p < 4 -> rT' (AMom p mu) = comp (num:=num) (q' p) mu.
  Hypothesis HV : forall p, p < 4 -> moved st eps L (q p) (q' p).
  Hypothesis HE : forall a, match a with AMom _ _ => False | _ => True end -> rT a = rT' a.

  (** ** Coefficients *)
  Definition wsum (f : four) (x : nat -> R) : R :=
    (let '(f0, f1, f2, f3) := f in IZR f0 * x 0%nat + IZR f1 * x 1%nat + IZR f2 * x 2%nat + IZR f3 * x 3%nat)%R.
  Lemma momenta_ok (r : tatom -> R) (rc : id -> list Z -> C) (k : nat -> rmom) mu :
    (forall p mu, p < 4 -> r (AMom p mu) = comp (num:=num) (k p) mu) ->
    forall t f, momenta_in mu t = Some f -> (denT (num:=num) r rc t : R) = wsum f (fun p => comp (num:=num) (k p) mu).
  Proof.
    intros HK. induction t as [z|d|a x IHx y IHy|x IHx|x IHx|x IHx|[]|x|x|]; intros f; cbn [momenta_in]; try discriminate.
    - destruct a; try discriminate.
      + destruct (momenta_in mu x) as [[[[a0 a1] a2] a3]|]; [|discriminate]. destruct (momenta_in mu y) as [[[[b0 b1] b2] b3]|]; [|discriminate].
        intros [= <-]. cbn [four_op]. transitivity ((denT (num:=num) r rc x + denT (num:=num) r rc y)%R); [reflexivity|].
        rewrite (IHx _ eq_refl), (IHy _ eq_refl). unfold wsum. rewrite !plus_IZR. inR. ring.
      + destruct (momenta_in mu x) as [[[[a0 a1] a2] a3]|]; [|discriminate]. destruct (momenta_in mu y) as [[[[b0 b1] b2] b3]|]; [|discriminate].
        intros [= <-]. cbn [four_op]. transitivity ((denT (num:=num) r rc x - denT (num:=num) r rc y)%R); [reflexivity|].
        rewrite (IHx _ eq_refl), (IHy _ eq_refl). unfold wsum. rewrite !minus_IZR. inR. ring.
    - destruct (momenta_in mu x) as [[[[a0 a1] a2] a3]|]; [|discriminate]. intros [= <-].
      transitivity ((- denT (num:=num) r rc x)%R); [reflexivity|]. rewrite (IHx _ eq_refl). cbn [four_op]. unfold wsum.
      change (0 - a0)%Z with (- a0)%Z. change (0 - a1)%Z with (- a1)%Z. change (0 - a2)%Z with (- a2)%Z. change (0 - a3)%Z with (- a3)%Z.
      rewrite !opp_IZR. inR. ring.
    - destruct (Nat.eqb_spec mu mu0) as [<-|]; [|discriminate]. intros E.
      transitivity (r (AMom p mu)); [reflexivity|].
      destruct p as [|[|[|[|p]]]]; try discriminate E; injection E as <-; rewrite HK by lia; unfold wsum; symmetry; inR; ring.
  Qed.
  Definition vsum (f : four) (k : nat -> rmom) : rmom :=
    V4 (wsum f (fun p => v_0 (k p))) (wsum f (fun p => v_1 (k p))) (wsum f (fun p => v_2 (k p))) (wsum f (fun p => v_3 (k p))).
  Lemma square_ok t : square_of t = true -> dT t = dT' t.
  Proof.
    intros H. destruct t as [| |[] x y| | | | | | |]; try discriminate H.
    destruct x as [| |[] x y3| | | | | | |]; try discriminate H. destruct x as [| |[] x y2| | | | | | |]; try discriminate H.
    destruct x as [| |[] a0 b0| | | | | | |]; try discriminate H. destruct y2 as [| |[] a1 b1| | | | | | |]; try discriminate H.
    destruct y3 as [| |[] a2 b2| | | | | | |]; try discriminate H. destruct y as [| |[] a3 b3| | | | | | |]; try discriminate H.
    cbn [square_of] in H. destruct (momenta_in 0 a0) as [f|] eqn:F0; [|discriminate H].
    repeat (apply andb_prop in H as [H ?]). repeat match goal with X : same4 _ _ = true |- _ => apply same4_eq in X end.
    assert (K : forall (r : tatom -> R) rc k, (forall p mu, p < 4 -> r (AMom p mu) = comp (num:=num) (k p) mu) ->
      (denT (num:=num) r rc (TOp Sub (TOp Sub (TOp Sub (TOp Mul a0 b0) (TOp Mul a1 b1)) (TOp Mul a2 b2)) (TOp Mul a3 b3)) : R) = minkdot (vsum f k) (vsum f k)).
    { intros r rc k HK. transitivity ((denT (num:=num) r rc a0 * denT (num:=num) r rc b0 - denT (num:=num) r rc a1 * denT (num:=num) r rc b1 -
        denT (num:=num) r rc a2 * denT (num:=num) r rc b2 - denT (num:=num) r rc a3 * denT (num:=num) r rc b3)%R); [reflexivity|].
      rewrite (momenta_ok r rc k 0 HK a0 f), (momenta_ok r rc k 0 HK b0 f), (momenta_ok r rc k 1 HK a1 f), (momenta_ok r rc k 1 HK b1 f),
        (momenta_ok r rc k 2 HK a2 f), (momenta_ok r rc k 2 HK b2 f), (momenta_ok r rc k 3 HK a3 f), (momenta_ok r rc k 3 HK b3 f) by assumption.
      reflexivity. }
    rewrite (K rT rC q HM), (K rT' rC' q' HM').
    assert (D : forall i j, i < 4 -> j < 4 -> minkdot (q' i) (q' j) = minkdot (q i) (q j)) by (intros; eapply moved_dot; eauto).
    destruct f as [[[f0 f1] f2] f3].
    assert (X : forall k : nat -> rmom, minkdot (vsum (f0, f1, f2, f3) k) (vsum (f0, f1, f2, f3) k) =
      (IZR f0 * IZR f0 * minkdot (k 0%nat) (k 0%nat) + IZR f1 * IZR f1 * minkdot (k 1%nat) (k 1%nat) + IZR f2 * IZR f2 * minkdot (k 2%nat) (k 2%nat) +
       IZR f3 * IZR f3 * minkdot (k 3%nat) (k 3%nat) + 2 * (IZR f0 * IZR f1 * minkdot (k 0%nat) (k 1%nat) + IZR f0 * IZR f2 * minkdot (k 0%nat) (k 2%nat) +
       IZR f0 * IZR f3 * minkdot (k 0%nat) (k 3%nat) + IZR f1 * IZR f2 * minkdot (k 1%nat) (k 2%nat) + IZR f1 * IZR f3 * minkdot (k 1%nat) (k 3%nat) +
       IZR f2 * IZR f3 * minkdot (k 2%nat) (k 3%nat)))%R).
    { intros k. unfold minkdot, vsum, wsum. cbn [v_0 v_1 v_2 v_3]. ring. }
    rewrite !X, !D by lia. reflexivity.
  Qed.
  Lemma inv_ok : (forall t, invT t = true -> dT t = dT' t) /\ (forall x, invC x = true -> dC x = dC' x).
  Proof.
    apply (terms_ind (fun t => invT t = true -> dT t = dT' t) (fun x => invC x = true -> dC x = dC' x)); try (cbn [invT invC square_of]; discriminate).
    - reflexivity.
    - reflexivity.
    - intros a x IHx y IHy H. cbn [invT] in H. destruct (square_of (TOp a x y)) eqn:E; [exact (square_ok _ E)|].
      destruct (invT x); [|discriminate H]. cbn [denT]. rewrite (IHx eq_refl), (IHy H). reflexivity.
    - intros x IHx H. cbn [invT square_of] in H. cbn [denT]. rewrite (IHx H). reflexivity.
    - intros x IHx H. cbn [invT square_of] in H. cbn [denT]. rewrite (IHx H). reflexivity.
    - intros x IHx H. cbn [invT square_of] in H. cbn [denT]. rewrite (IHx H). reflexivity.
    - intros k H. cbn [denT]. destruct k; cbn [invT square_of] in H; try discriminate H; apply HE; exact I.
    - intros x IHx H. cbn [invT square_of] in H. cbn [denT]. change (cre (n:=num) (dC x) = cre (n:=num) (dC' x)). rewrite (IHx H). reflexivity.
    - intros x IHx y IHy H. cbn [invC] in H. destruct (invT x); [|discriminate H].
      change (cmk (n:=num) (dT x) (dT y) = cmk (n:=num) (dT' x) (dT' y)). rewrite (IHx eq_refl), (IHy H). reflexivity.
    - intros a x IHx y IHy H. cbn [invC] in H. destruct (invC x); [|discriminate H]. cbn [denC]. rewrite (IHx eq_refl), (IHy H). reflexivity.
    - intros x IHx H. cbn [invC] in H. cbn [denC]. rewrite (IHx H). reflexivity.
    - intros x IHx H. cbn [invC] in H. cbn [denC]. rewrite (IHx H). reflexivity.
    - intros a x IHx y IHy H. cbn [invC] in H. destruct (invC x); [|discriminate H].
      change (aopCT (num:=num) a (dC x) (dT y) = aopCT (num:=num) a (dC' x) (dT' y)). rewrite (IHx eq_refl), (IHy H). reflexivity.
    - intros a x IHx y IHy H. cbn [invC] in H. destruct (invT x); [|discriminate H].
      change (aopTC (num:=num) a (dT x) (dC y) = aopTC (num:=num) a (dT' x) (dC' y)). rewrite (IHx eq_refl), (IHy H). reflexivity.
  Qed.
  Lemma invK_ok a : invK a = true -> coefval st eps rT rC a = coefval st eps rT' rC' a.
  Proof.
    destruct inv_ok as [IT IC]. destruct a; cbn [invK coefval]; intros H; rewrite ?(IT _ H), ?(IC _ H); reflexivity.
  Qed.

  (** ** Phases *)
  Variables a b l : nat -> C.
  Hypothesis HU : forall p, p < 4 -> pat p = false ->
    move st eps L (up_of st eps (q p)) = comb st eps (Cconj (a p)) (up_of st eps (q' p)) (Copp (Cconj (b p))) (down_of st eps (q' p)) /\
    move st eps L (down_of st eps (q p)) = comb st eps (b p) (up_of st eps (q' p)) (a p) (down_of st eps (q' p)).
  Hypothesis HF : forall p, p < 4 -> pat p = true -> move st eps L (flat_of st eps (q p)) = phase st eps (l p) (flat_of st eps (q' p)).
  Hypothesis HN : forall p, Cmult (l p) (Cconj (l p)) = RtoC 1.
  Definition prod4 (w : nat -> Z) : C :=
    Cmult (Cmult (Cmult (cz (l 0) (w 0)) (cz (l 1) (w 1))) (cz (l 2) (w 2))) (cz (l 3) (w 3)).
  Lemma prod4_add v w : prod4 (fun p => v p + w p)%Z = Cmult (prod4 v) (prod4 w).
  Proof. unfold prod4. rewrite !cz_add by apply HN. ring. Qed.
  Lemma prod4_unit w : Cmult (prod4 w) (Cconj (prod4 w)) = RtoC 1.
  Proof.
    unfold prod4. rewrite !conj_mul.
    transitivity (Cmult (Cmult (Cmult (Cmult (cz (l 0) (w 0)) (Cconj (cz (l 0) (w 0)))) (Cmult (cz (l 1) (w 1)) (Cconj (cz (l 1) (w 1)))))
      (Cmult (cz (l 2) (w 2)) (Cconj (cz (l 2) (w 2))))) (Cmult (cz (l 3) (w 3)) (Cconj (cz (l 3) (w 3))))); [ring|].
    rewrite !cz_unit by apply HN. ring.
  Qed.
  Lemma prod4_zero w : (forall p, w p = 0%Z) -> prod4 w = RtoC 1.
  Proof. intros H. unfold prod4. rewrite !H, !cz_0. ring. Qed.
  Lemma prod4_end angle x p : p < 4 ->
    prod4 (wt_end angle x p) = match x with None => if angle then l p else Cconj (l p) | Some _ => RtoC 1 end.
  Proof.
    intros Hp. destruct x; [apply prod4_zero; reflexivity|].
    unfold prod4, wt_end. destruct p as [|[|[|[|p]]]]; try lia; cbn [Nat.eqb]; rewrite !cz_0; destruct angle; unfold cz; cbn [Z.opp]; change (Z.to_nat 1) with 1; change (Z.to_nat (-1)) with 0; cbn [Cpow]; ring.
  Qed.

  Variable z : zvars.
  Notation z' := (turned a b z).
  Notation endz := (endz st eps).
  Lemma move_endz p x : p < 4 -> suits pat x p = true ->
    move st eps L (endz q z p x) = match x with Some _ => endz q' z' p x | None => phase st eps (l p) (endz q' z' p x) end.
  Proof.
    intros Hp HS. destruct x as [x|]; cbn [CovReal.endz suits] in *.
    - apply negb_true_iff in HS. destruct (HU p Hp HS) as (E1 & E2). rewrite move_comb, E1, E2. unfold turned.
      generalize (up_of st eps (q' p)) (down_of st eps (q' p)) (z p true) (z p false) (a p) (Cconj (a p)) (b p) (Cconj (b p)).
      intros [u1 u2] [d1 d2] z1 z2 x1 x2 x3 x4. unfold comb. cbn [fst snd].
      assert (A : forall u d : cvector num, vadd st eps (cv_scale (num:=num) z1 (vadd st eps (cv_scale (num:=num) x2 u) (cv_scale (num:=num) (Copp x4) d)))
         (cv_scale (num:=num) z2 (vadd st eps (cv_scale (num:=num) x3 u) (cv_scale (num:=num) x1 d))) =
         vadd st eps (cv_scale (num:=num) (x2 * z1 + x3 * z2)%C u) (cv_scale (num:=num) (- x4 * z1 + x1 * z2)%C d)).
      { intros [[u3 u4] [u5 u6]] [[d3 d4] [d5 d6]]. destruct z1, z2, x1, x2, x3, x4. to_reals; ring. }
      rewrite !A. reflexivity.
    - exact (HF p Hp HS).
  Qed.
  Lemma leaf_move angle x p ds y r : 
    leafz st eps q pat z angle x p ds y r =
    Cmult (prod4 (fun k => wt_end angle x p k + wt_end (Bool.eqb angle (Nat.even (length ds))) y r k)%Z)
          (leafz st eps q' pat z' angle x p ds y r).
  Proof.
    unfold leafz. destruct (okleaf pat x p ds y r) eqn:E; [|ring].
    unfold okleaf, lt4 in E. apply andb_prop in E as [E E5]. apply andb_prop in E as [E E4]. apply andb_prop in E as [E E3]. apply andb_prop in E as [E1 E2].
    apply Nat.ltb_lt in E1, E2.
    assert (K : Forall2 (moved st eps L) (map q ds) (map q' ds)).
    { clear E4 E5. induction ds as [|d ds IH]; cbn [map]; constructor.
      - apply HV. cbn [forallb] in E3. apply andb_prop in E3 as [E3 _]. apply Nat.ltb_lt, E3.
      - apply IH. cbn [forallb] in E3. apply andb_prop in E3 as [_ E3]. exact E3. }
    rewrite <- (zch_move st eps L HL angle _ _ _ _ K), prod4_add, !prod4_end by assumption.
    rewrite (move_endz p x E1 E4), (move_endz r y E2 E5).
    destruct x, y; rewrite ?zch_phase_left, ?zch_phase_right, ?map_length; ring.
  Qed.
  Notation rhou tab := (rho_of st eps rT rC tab (fun _ _ => RtoC 0) (leafz st eps q pat z)).
  Notation rhou' tab := (rho_of st eps rT' rC' tab (fun _ _ => RtoC 0) (leafz st eps q' pat z')).
  Lemma rho_move tab x : forallb invK tab = true -> rhou tab x = Cmult (prod4 (fun p => weight_of p x)) (rhou' tab x).
  Proof.
    intros HK. unfold rho_of, weight_of. destruct (dec x) as [[n|p u|angle sL p ds sR r]|].
    - rewrite prod4_zero by reflexivity. destruct (nth_error tab (Pos.to_nat n - 1)) as [k|] eqn:E; [|ring].
      rewrite (invK_ok k); [ring|]. apply (proj1 (forallb_forall _ _) HK). eapply nth_error_In, E.
    - rewrite prod4_zero by reflexivity. ring.
    - apply leaf_move.
    - rewrite prod4_zero by reflexivity. ring.
  Qed.
  Lemma mono_move tab m : forallb invK tab = true -> meval (rhou tab) m = Cmult (prod4 (fun p => mweight p m)) (meval (rhou' tab) m).
  Proof.
    intros HK. induction m as [|x m IH].
    - rewrite prod4_zero by reflexivity. cbn. ring.
    - change (meval (rhou tab) (x :: m)) with (Cmult (rhou tab x) (meval (rhou tab) m)).
      change (meval (rhou' tab) (x :: m)) with (Cmult (rhou' tab x) (meval (rhou' tab) m)).
      change (prod4 (fun p => mweight p (x :: m))) with (prod4 (fun p => weight_of p x + mweight p m)%Z).
      rewrite prod4_add, IH, (rho_move tab x HK). ring.
  Qed.
  Definition four_at (w : four) (p : nat) : Z :=
    let '(w0, w1, w2, w3) := w in match p with 0 => w0 | 1 => w1 | 2 => w2 | _ => w3 end.
  Lemma poly_move tab w P : forallb invK tab = true -> uniform w P = true ->
    peval (rhou tab) P = Cmult (prod4 (four_at w)) (peval (rhou' tab) P).
  Proof.
    intros HK. induction P as [|[k m] P IH]; intros HW; [cbn; ring|].
    cbn [uniform forallb snd] in HW. apply andb_prop in HW as [H1 H2]. rewrite !peval_cons, (IH H2), (mono_move tab _ HK). cbn [fst snd].
    apply four_eqb_eq in H1. assert (E : prod4 (fun p => mweight p m) = prod4 (four_at w)) by (rewrite <- H1; reflexivity).
    rewrite E. ring.
  Qed.

  (** ** The amplitudes *)
  Hypothesis HP : forall p, p < 4 -> pat p = Reqb (rT (AMass p)) 0.
  Hypothesis HA : forall p, p < 4 -> fst (particle_new (num:=num) (fun _ => 0%R) (q p) (rT (AMass p))) = Ok tt.
  Hypothesis HA' : forall p, p < 4 -> fst (particle_new (num:=num) (fun _ => 0%R) (q' p) (rT' (AMass p))) = Ok tt.
  Variable c : cls.
  Variable b1 : pobj snum.
  Lemma covar_move ks top w m (F F' : list (list Z) -> C) : length ks = 4 ->
    (forall s y, amp_at c pat b1 m s = Some y -> F s = dC y) -> (forall s y, amp_at c pat b1 m s = Some y -> F' s = dC' y) ->
    covar c pat b1 ks top w m = true ->
    form_of ks F z 0 top = Cmult (prod4 (four_at w)) (form_of ks F' z' 0 top).
  Proof.
    intros Hks H1 H2 HC. unfold covar in HC. destruct (amp_at c pat b1 m top) as [y|] eqn:Ey; [|discriminate HC].
    cbn zeta in HC. destruct (forallb invK (table y)) eqn:EK; [|discriminate HC]. cbn [negb] in HC.
    destruct (norm pat (table y) leaf_u y) as [P|] eqn:EP; [|discriminate HC]. destruct (uniform w P) eqn:EW; [|discriminate HC].
    assert (HP' : forall p, p < 4 -> pat p = Reqb (rT' (AMass p)) 0).
    { intros p Hp. rewrite <- (HE (AMass p) I). apply HP, Hp. }
    rewrite (covar_form st eps rT rC q pat HM HP HA z (table y) (table_head y) c b1 m ks top y P F H1 Hks EP HC).
    rewrite (covar_form st eps rT' rC' q' pat HM' HP' HA' z' (table y) (table_head y) c b1 m ks top y P F' H2 Hks EP HC).
    apply poly_move; assumption.
  Qed.
End Move.
