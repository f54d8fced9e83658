(** * The polynomial of an amplitude has its value

    Lemmas behind C47, used in proofs only: what the checks of Covariant.v mean over the
    exact reals. *)
From Coq Require Import Reals QArith Qreals String Ascii Lra Lia.
From Coquelicot Require Import Complex.
From Verif Require Import Base Scalar RealNum Linear Integers Particle Sproduct Propagator Process
  ParticleProofs SpecSpinor ParticleReal SpinorReal Ready ParticleClaims SpecSproduct SpecChain ChainReal Utilities UtilReal Lorentz
  Lang Pure PureProofs Sym SymEq SMNames SMRun SMAmp2 SpinColour Poly Covariant SpinRot.
Close Scope Q_scope.
Close Scope R_scope.
Open Scope nat_scope.

Scheme sT_two := Induction for sT Sort Prop with sC_two := Induction for sC Sort Prop.
Combined Scheme terms_ind from sT_two, sC_two.

Lemma find_coef_ok a : forall tab k n, find_coef a tab k = Some n ->
  (Pos.to_nat k <= Pos.to_nat n) /\ nth_error tab (Pos.to_nat n - Pos.to_nat k) = Some a.
Proof.
  induction tab as [|b tab IH]; cbn [find_coef]; intros k n H; [discriminate H|].
  destruct (coef_eqb a b) eqn:E.
  - injection H as <-. rewrite Nat.sub_diag. split; [lia|]. cbn. f_equal.
    destruct sym_eqb_eq as (ET & EC & _).
    destruct a, b; cbn in E; try discriminate E; f_equal; symmetry; auto.
  - destruct (IH _ _ H) as (H1 & H2). rewrite Pos2Nat.inj_succ in *. split; [lia|].
    replace (Pos.to_nat n - Pos.to_nat k) with (S (Pos.to_nat n - S (Pos.to_nat k))) by lia. exact H2.
Qed.
Lemma Cinv_RtoC x : Cinv (RtoC x) = RtoC (/ x).
Proof.
  unfold Cinv, RtoC. cbn [fst snd]. destruct (Req_dec x 0) as [->|Hx].
  - rewrite Rinv_0. f_equal; unfold Rdiv; ring.
  - f_equal; field; auto.
Qed.

Section At.
  Variables (st : bool) (eps : R).
  Notation num := (RN st eps).
  Notation rmom := (vec4 R).
  Variable rT : tatom -> R.
  Variable rC : id -> list Z -> C.
  Variable q : nat -> rmom.
  Variable pat : nat -> bool.
  Notation dT := (denT (num:=num) rT rC : sT -> R).
  Notation dC := (denC (num:=num) rT rC : sC -> C).

  Definition coefval (a : coef) : C :=
    match a with KT t => RtoC (dT t) | KTinv t => RtoC (/ dT t) | KC x => dC x | KCinv x => Cinv (dC x) end.

  (** ** Terms with other values for the products *)
  Section Leaf.
    Variable lf : bool -> option bool -> nat -> list nat -> option bool -> nat -> C.
    Fixpoint ev (x : sC) : C :=
      match x with
      | CProd angle sL dL ds sR dR =>
          match lab sL, leg_of dL, legs_in ds, lab sR, leg_of dR with
          | Some a, Some L, Some l, Some b, Some R => lf angle a L l b R
          | _, _, _, _, _ => RtoC 0
          end
      | COp Add x y => Cplus (ev x) (ev y)
      | COp Sub x y => Cminus (ev x) (ev y)
      | COp Mul x y => Cmult (ev x) (ev y)
      | COp Div x y => Cdiv (ev x) (dC y)
      | CNeg x => Copp (ev x)
      | CCT Mul x y => Cmult (ev x) (RtoC (dT y))
      | CCT Div x y => Cdiv (ev x) (RtoC (dT y))
      | CTC Mul x y => Cmult (RtoC (dT x)) (ev y)
      | _ => dC x
      end.

    Variable tab : list coef.
    Variable rho : positive -> C.
    Variable leaf : bool -> option bool -> nat -> list nat -> option bool -> nat -> poly.
    Hypothesis HS : forall n a, nth_error tab (Pos.to_nat n - 1) = Some a -> rho (enc (VS n)) = coefval a.
    Lemma atomic_ok a p : atomic tab a = Some p -> peval rho p = coefval a.
    Proof.
      unfold atomic. destruct (find_coef a tab 1) as [n|] eqn:E; [|discriminate]. intros [= <-].
      rewrite peval_mono. cbn [meval fold_right]. destruct (find_coef_ok _ _ _ _ E) as (_ & H). pose proof (HS n a H) as K. cbn [enc] in K. rewrite K. ring.
    Qed.
    Lemma omulp_some x y p : omulp x y = Some p -> exists a b, x = Some a /\ y = Some b /\ p = pmul a b.
    Proof. destruct x, y; try discriminate. intros [= <-]. eauto. Qed.
    Lemma oadd_some x y p : oadd x y = Some p -> exists a b, x = Some a /\ y = Some b /\ p = padd a b.
    Proof. destruct x, y; try discriminate. intros [= <-]. eauto. Qed.
    Lemma oneg_some x p : oneg x = Some p -> exists a, x = Some a /\ p = pneg a.
    Proof. destruct x; try discriminate. intros [= <-]. eauto. Qed.
    Lemma normT_ok t : forall p, normT tab t = Some p -> peval rho p = RtoC (dT t).
    Proof.
      assert (At : forall t p, (if invT t then atomic tab (KT t) else None) = Some p -> peval rho p = RtoC (dT t)).
      { intros t0 p H. destruct (invT t0); [|discriminate H]. exact (atomic_ok _ _ H). }
      induction t as [z|d|a x IHx y IHy|x IHx|x IHx|x IHx|k|x|x|]; intros p H; try (apply At; exact H).
      - destruct z as [|[| |]|]; try (apply At; exact H).
        + injection H as <-. reflexivity.
        + injection H as <-. unfold pone. rewrite peval_mono. reflexivity.
      - destruct a; try (apply At; exact H).
        + cbn [normT] in H. apply omulp_some in H as (a & b & Ea & Eb & ->). rewrite peval_mul, (IHx a Ea), (IHy b Eb).
          symmetry. apply RtoC_mult.
        + cbn [normT] in H. destruct (invT y); [|discriminate H]. apply omulp_some in H as (a & b & Ea & Eb & ->).
          rewrite peval_mul, (IHx a Ea), (atomic_ok _ _ Eb). cbn [coefval]. symmetry. apply RtoC_mult.
      - cbn [normT] in H. apply oneg_some in H as (a & Ea & ->). rewrite peval_neg, (IHx a Ea). symmetry. apply RtoC_opp.
    Qed.
    Hypothesis HL : forall angle a L ds b R, L < 4 -> R < 4 -> Forall (fun p => p < 4) ds -> suits pat a L = true -> suits pat b R = true ->
      peval rho (leaf angle a L ds b R) = lf angle a L ds b R.
    Lemma leg_of_lt d p : leg_of d = Some p -> p < 4.
    Proof.
      destruct d as [m q0 q1 q2 q3]. destruct m; try discriminate. destruct k; try discriminate.
      destruct q0; try discriminate. destruct k; try discriminate. destruct mu; try discriminate.
      destruct q1; try discriminate. destruct k; try discriminate. destruct mu as [|[|]]; try discriminate.
      destruct q2; try discriminate. destruct k; try discriminate. destruct mu as [|[|[|]]]; try discriminate.
      destruct q3; try discriminate. destruct k; try discriminate. destruct mu as [|[|[|[|]]]]; try discriminate.
      cbn [leg_of]. destruct (p0 <? 4) eqn:E; [|rewrite andb_false_r; discriminate]. apply Nat.ltb_lt in E.
      destruct (_ && true); [|discriminate]. intros [= <-]. exact E.
    Qed.
    Lemma legs_in_lt ds : forall l, legs_in ds = Some l -> Forall (fun p => p < 4) l.
    Proof.
      induction ds as [|d ds IH]; cbn [legs_in]; intros l H; [injection H as <-; constructor|].
      destruct (leg_of d) as [p|] eqn:E; [|discriminate H]. destruct (legs_in ds) as [l'|]; [|discriminate H]. injection H as <-.
      constructor; [exact (leg_of_lt _ _ E)|auto].
    Qed.
    Lemma norm_ok x : forall p, norm pat tab leaf x = Some p -> peval rho p = ev x.
    Proof.
      assert (At : forall x p, (if invC x then atomic tab (KC x) else None) = Some p -> peval rho p = dC x).
      { intros x0 p H. destruct (invC x0); [|discriminate H]. exact (atomic_ok _ _ H). }
      induction x as [x y|a x IHx y IHy|x IHx|x IHx|a x IHx y|a x y IHy|angle sL dL ds sR dR| | | |]; intros p H; try (apply At; exact H).
      - cbn [ev]. destruct x as [[| |]| | | | | | | | | ]; try (apply At; exact H).
        destruct y as [[| |]| | | | | | | | | ]; try (apply At; exact H). injection H as <-. reflexivity.
      - destruct a; cbn [norm] in H; cbn [ev].
        + apply oadd_some in H as (a & b & Ea & Eb & ->). rewrite peval_add, (IHx a Ea), (IHy b Eb). reflexivity.
        + apply oadd_some in H as (a & b & Ea & Eb & ->). apply oneg_some in Eb as (b' & Eb & ->).
          rewrite peval_add, peval_neg, (IHx a Ea), (IHy b' Eb). reflexivity.
        + apply omulp_some in H as (a & b & Ea & Eb & ->). rewrite peval_mul, (IHx a Ea), (IHy b Eb). reflexivity.
        + destruct (invC y); [|discriminate H]. apply omulp_some in H as (a & b & Ea & Eb & ->).
          rewrite peval_mul, (IHx a Ea), (atomic_ok _ _ Eb). reflexivity.
      - cbn [norm] in H; cbn [ev]. apply oneg_some in H as (a & Ea & ->). rewrite peval_neg, (IHx a Ea). reflexivity.
      - destruct a; cbn [ev]; try (apply At; exact H).
        + cbn [norm] in H. apply omulp_some in H as (a & b & Ea & Eb & ->). rewrite peval_mul, (IHx a Ea), (normT_ok _ _ Eb). reflexivity.
        + cbn [norm] in H. destruct (invT y); [|discriminate H]. apply omulp_some in H as (a & b & Ea & Eb & ->).
          rewrite peval_mul, (IHx a Ea), (atomic_ok _ _ Eb). cbn [coefval]. unfold Cdiv. rewrite Cinv_RtoC. reflexivity.
      - destruct a; cbn [ev]; try (apply At; exact H).
        cbn [norm] in H. apply omulp_some in H as (a & b & Ea & Eb & ->). rewrite peval_mul, (IHy b Eb), (normT_ok _ _ Ea). reflexivity.
      - cbn [norm] in H; cbn [ev]. destruct (lab sL) as [a|]; [|discriminate H]. destruct (leg_of dL) as [L|] eqn:EL; [|discriminate H].
        destruct (legs_in ds) as [l|] eqn:El; [|discriminate H]. destruct (lab sR) as [b|]; [|discriminate H].
        destruct (leg_of dR) as [R|] eqn:ER; [|discriminate H]. destruct (suits pat a L) eqn:E1; [|discriminate H].
        destruct (suits pat b R) eqn:E2; [|discriminate H]. injection H as <-.
        apply HL; eauto using leg_of_lt, legs_in_lt.
    Qed.
  End Leaf.

  (** ** The products are those of the code *)
  Hypothesis HM : forall p mu, p < 4 -> rT (AMom p mu) = comp (num:=num) (q p) mu.
  Hypothesis HP : forall p, p < 4 -> pat p = Reqb (rT (AMass p)) 0.
  Hypothesis HA : forall p, p < 4 -> fst (particle_new (num:=num) (fun _ => 0%R) (q p) (rT (AMass p))) = Ok tt.
  Definition spin_of (a : option bool) : option (Z * bool) :=
    match a with Some true => Some (1, true) | Some false => Some (-1, true) | None => None end%Z.
  Definition leafc (angle : bool) (a : option bool) (L : nat) (ds : list nat) (b : option bool) (R : nat) : C :=
    zch st eps angle (ends_of st eps (q L) (spin_of a)) (map q ds) (ends_of st eps (q R) (spin_of b)).
  Lemma ready_leg p : p < 4 -> ready (num:=num) (rT (AMass p)) (q p) (fresh (num:=num) (rT (AMass p), q p)).
  Proof.
    intros Hp. pose proof (HA p Hp) as K. unfold fresh. cbn [fst snd]. change (tZ (n:=num) 0) with 0%R.
    destruct (particle_new (num:=num) (fun _ => 0%R) (q p) (rT (AMass p))) as [r P] eqn:E. cbn [fst] in K. subst r.
    exact (ready_new _ _ _ _ E).
  Qed.
  Lemma leg_of_dend d p : leg_of d = Some p -> dend (num:=num) rT rC d = (rT (AMass p), q p).
  Proof.
    intros H. pose proof (leg_of_lt d p H) as Hp.
    destruct d as [m q0 q1 q2 q3]. destruct m; try discriminate. destruct k; try discriminate.
    destruct q0; try discriminate. destruct k; try discriminate. destruct mu; try discriminate.
    destruct q1; try discriminate. destruct k; try discriminate. destruct mu as [|[|]]; try discriminate.
    destruct q2; try discriminate. destruct k; try discriminate. destruct mu as [|[|[|]]]; try discriminate.
    destruct q3; try discriminate. destruct k; try discriminate. destruct mu as [|[|[|[|]]]]; try discriminate.
    cbn [leg_of] in H. destruct (Nat.eqb_spec p0 p1); cbn [andb] in H; [|discriminate]. destruct (Nat.eqb_spec p0 p2); cbn [andb] in H; [|discriminate].
    destruct (Nat.eqb_spec p0 p3); cbn [andb] in H; [|discriminate]. destruct (Nat.eqb_spec p0 p4); cbn [andb] in H; [|discriminate].
    destruct (p0 <? 4); [|discriminate]. injection H as ->. subst. cbn [dend denT]. rewrite !HM by assumption.
    match goal with |- context [q ?x] => destruct (q x); reflexivity end.
  Qed.
  Lemma legs_in_dends ds : forall l, legs_in ds = Some l ->
    Forall2 (carries st eps) (map (fresh (num:=num)) (dends (num:=num) rT rC ds)) (map q l).
  Proof.
    induction ds as [|d ds IH]; cbn [legs_in]; intros l H; [injection H as <-; constructor|].
    destruct (leg_of d) as [p|] eqn:E; [|discriminate H]. destruct (legs_in ds) as [l'|]; [|discriminate H]. injection H as <-.
    change (Forall2 (carries st eps) (fresh (num:=num) (dend (num:=num) rT rC d) :: map (fresh (num:=num)) (dends (num:=num) rT rC ds)) (q p :: map q l')).
    constructor; [|auto]. rewrite (leg_of_dend _ _ E). exists (rT (AMass p)). apply ready_leg, (leg_of_lt _ _ E).
  Qed.
  Lemma good_of s a p : p < 4 -> lab s = Some a -> suits pat a p = true ->
    sspin s = spin_of a /\ good_end (rT (AMass p)) (spin_of a).
  Proof.
    intros Hp HL HS. assert (K : (exists z, s = Some z /\ (z = 1 \/ z = -1)%Z /\ a = Some (Z.eqb z 1)) \/ s = None /\ a = None).
    { destruct s as [z|]; [|right; injection HL as <-; auto]. left. exists z. cbn [lab] in HL.
      destruct z as [|[]|[]]; try discriminate HL; injection HL as <-; auto. }
    destruct K as [(z & -> & Hz & ->)|(-> & ->)].
    - cbn [suits] in HS. rewrite (HP p Hp) in HS. apply negb_true_iff in HS. apply Reqb_false in HS.
      destruct Hz as [-> | ->]; cbn; (split; [reflexivity|]); split; auto; unfold is_spin; auto.
    - cbn [suits] in HS. rewrite (HP p Hp) in HS. apply Reqb_true in HS. split; [reflexivity|exact HS].
  Qed.
  Lemma ev_den tab leaf x : forall p, norm pat tab leaf x = Some p -> ev leafc x = dC x.
  Proof.
    induction x as [x y|a x IHx y IHy|x IHx|x IHx|a x IHx y|a x y IHy|angle sL dL ds sR dR| | | |]; intros p H; try reflexivity.
    - destruct a; cbn [norm] in H; cbn [ev].
      + apply oadd_some in H as (a & b & Ea & Eb & ->). rewrite (IHx a Ea), (IHy b Eb). reflexivity.
      + apply oadd_some in H as (a & b & Ea & Eb & ->). apply oneg_some in Eb as (b' & Eb & ->).
        rewrite (IHx a Ea), (IHy b' Eb). reflexivity.
      + apply omulp_some in H as (a & b & Ea & Eb & ->). rewrite (IHx a Ea), (IHy b Eb). reflexivity.
      + destruct (invC y); [|discriminate H]. apply omulp_some in H as (a & b & Ea & Eb & ->). rewrite (IHx a Ea). reflexivity.
    - cbn [norm] in H; cbn [ev]. apply oneg_some in H as (a & Ea & ->). rewrite (IHx a Ea). reflexivity.
    - destruct a; cbn [ev]; try reflexivity.
      + cbn [norm] in H. apply omulp_some in H as (a & b & Ea & Eb & ->). rewrite (IHx a Ea). reflexivity.
      + cbn [norm] in H. destruct (invT y); [|discriminate H]. apply omulp_some in H as (a & b & Ea & Eb & ->). rewrite (IHx a Ea). reflexivity.
    - destruct a; cbn [ev]; try reflexivity.
      cbn [norm] in H. apply omulp_some in H as (a & b & Ea & Eb & ->). rewrite (IHy b Eb). reflexivity.
    - cbn [norm] in H; cbn [ev]. destruct (lab sL) as [a|] eqn:Ea; [|discriminate H]. destruct (leg_of dL) as [L|] eqn:EL; [|discriminate H].
      destruct (legs_in ds) as [l|] eqn:El; [|discriminate H]. destruct (lab sR) as [b|] eqn:Eb; [|discriminate H].
      destruct (leg_of dR) as [R|] eqn:ER; [|discriminate H]. destruct (suits pat a L) eqn:E1; [|discriminate H].
      destruct (suits pat b R) eqn:E2; [|discriminate H].
      destruct (good_of _ _ _ (leg_of_lt _ _ EL) Ea E1) as (S1 & G1). destruct (good_of _ _ _ (leg_of_lt _ _ ER) Eb E2) as (S2 & G2).
      change (leafc angle a L l b R = okd (c0 (num:=num)) (chain (num:=num) angle (sspin sL) (fresh (num:=num) (dend (num:=num) rT rC dL))
        (map (fresh (num:=num)) (dends (num:=num) rT rC ds)) (sspin sR) (fresh (num:=num) (dend (num:=num) rT rC dR)))).
      rewrite S1, S2, (leg_of_dend _ _ EL), (leg_of_dend _ _ ER).
      rewrite (chain_eval st eps angle _ _ _ _ _ _ _ _ _ _ (ready_leg _ (leg_of_lt _ _ EL)) (legs_in_dends ds l El) (ready_leg _ (leg_of_lt _ _ ER)) G1 G2).
      cbn [okd]. rewrite rchain_zch. reflexivity.
  Qed.

  (** ** Variables for the spins *)
  Variable z : zvars.
  Definition endz (p : nat) (a : option bool) : ends st eps :=
    match a with
    | Some _ => comb st eps (z p true) (up_of st eps (q p)) (z p false) (down_of st eps (q p))
    | None => flat_of st eps (q p)
    end.
  Definition lt4 (p : nat) : bool := p <? 4.
  Definition okleaf (a : option bool) (L : nat) (ds : list nat) (b : option bool) (R : nat) : bool :=
    lt4 L && lt4 R && forallb lt4 ds && suits pat a L && suits pat b R.
  Definition leafz (angle : bool) (a : option bool) (L : nat) (ds : list nat) (b : option bool) (R : nat) : C :=
    if okleaf a L ds b R then zch st eps angle (endz L a) (map q ds) (endz R b) else RtoC 0.
  Variable tab : list coef.
  Definition rho_of (zv : zvars) (lf : bool -> option bool -> nat -> list nat -> option bool -> nat -> C) (x : positive) : C :=
    match dec x with
    | Some (VS n) => match nth_error tab (Pos.to_nat n - 1) with Some a => coefval a | None => RtoC 0 end
    | Some (VZ p u) => zv p u
    | Some (VC angle a L ds b R) => lf angle a L ds b R
    | None => RtoC 0
    end.
  Lemma rho_coef zv lf n a : nth_error tab (Pos.to_nat n - 1) = Some a -> rho_of zv lf (enc (VS n)) = coefval a.
  Proof. intros H. unfold rho_of. rewrite (dec_enc (VS n) I), H. reflexivity. Qed.
  Lemma rho_z zv lf p u : p < 4 -> rho_of zv lf (enc (VZ p u)) = zv p u.
  Proof. intros H. unfold rho_of. rewrite (dec_enc (VZ p u) H). reflexivity. Qed.
  Lemma rho_prod zv lf angle a L ds b R : L < 4 -> R < 4 -> Forall (fun p => p < 4) ds ->
    rho_of zv lf (enc (VC angle a L ds b R)) = lf angle a L ds b R.
  Proof. intros H1 H2 H3. unfold rho_of. rewrite (dec_enc (VC angle a L ds b R) (conj H1 (conj H2 H3))). reflexivity. Qed.
  Lemma okleaf_yes a L ds b R : L < 4 -> R < 4 -> Forall (fun p => p < 4) ds -> suits pat a L = true -> suits pat b R = true ->
    okleaf a L ds b R = true.
  Proof.
    intros H1 H2 H3 H4 H5. unfold okleaf, lt4. apply Nat.ltb_lt in H1. apply Nat.ltb_lt in H2. rewrite H1, H2, H4, H5.
    assert (E : forallb (fun p => p <? 4) ds = true).
    { apply forallb_forall. intros p Hp. apply Nat.ltb_lt. exact (proj1 (Forall_forall _ _) H3 p Hp). }
    rewrite E. reflexivity.
  Qed.
  Notation rho0 := (rho_of z leafc).
  Notation rhou := (rho_of (fun _ _ => RtoC 0) leafz).
  Lemma leaf_v_ok angle a L ds b R : L < 4 -> R < 4 -> Forall (fun p => p < 4) ds ->
    peval rho0 (leaf_v angle a L ds b R) = leafc angle a L ds b R.
  Proof.
    intros H1 H2 H3. unfold leaf_v. rewrite peval_mono. cbn [meval fold_right]. rewrite (rho_prod _ _ _ _ _ _ _ _ H1 H2 H3). ring.
  Qed.
  Lemma leaf_u_ok angle a L ds b R : L < 4 -> R < 4 -> Forall (fun p => p < 4) ds -> suits pat a L = true -> suits pat b R = true ->
    peval rhou (leaf_u angle a L ds b R) = leafz angle a L ds b R.
  Proof.
    intros H1 H2 H3 H4 H5. unfold leaf_u. rewrite peval_mono. cbn [meval fold_right]. rewrite (rho_prod _ _ _ _ _ _ _ _ H1 H2 H3).
    unfold leafz. rewrite (okleaf_yes a L ds b R H1 H2 H3 H4 H5).
    rewrite (okleaf_yes (up a) L ds (up b) R H1 H2 H3) by (destruct a, b; assumption).
    rewrite Cmult_1_r. destruct a, b; reflexivity.
  Qed.
  Lemma leaf_z_ok angle a L ds b R : L < 4 -> R < 4 -> Forall (fun p => p < 4) ds -> suits pat a L = true -> suits pat b R = true ->
    peval rho0 (leaf_z angle a L ds b R) = leafz angle a L ds b R.
  Proof.
    intros H1 H2 H3 H4 H5. unfold leafz. rewrite (okleaf_yes a L ds b R H1 H2 H3 H4 H5). unfold leaf_z.
    destruct a as [a|], b as [b|]; cbn [spread flat_map map app fst snd endz peval fold_right]; rewrite !meval_merge; cbn [meval fold_right];
      rewrite ?(rho_prod _ _ _ _ _ _ _ _ H1 H2 H3), ?(rho_z _ _ L _ H1), ?(rho_z _ _ R _ H2);
      rewrite ?zch_left, ?zch_right; unfold leafc; cbn [spin_of];
      fold (up_of st eps (q L)); fold (down_of st eps (q L)); fold (up_of st eps (q R)); fold (down_of st eps (q R));
      fold (flat_of st eps (q L)); fold (flat_of st eps (q R));
      generalize (zch st eps angle (up_of st eps (q L)) (map q ds) (up_of st eps (q R)))
        (zch st eps angle (up_of st eps (q L)) (map q ds) (down_of st eps (q R)))
        (zch st eps angle (down_of st eps (q L)) (map q ds) (up_of st eps (q R)))
        (zch st eps angle (down_of st eps (q L)) (map q ds) (down_of st eps (q R)))
        (zch st eps angle (flat_of st eps (q L)) (map q ds) (up_of st eps (q R)))
        (zch st eps angle (flat_of st eps (q L)) (map q ds) (down_of st eps (q R)))
        (zch st eps angle (up_of st eps (q L)) (map q ds) (flat_of st eps (q R)))
        (zch st eps angle (down_of st eps (q L)) (map q ds) (flat_of st eps (q R)))
        (zch st eps angle (flat_of st eps (q L)) (map q ds) (flat_of st eps (q R)));
      generalize (z L true) (z L false) (z R true) (z R false); intros; ring.
  Qed.

  (** ** The sum over the spins *)
  Hypothesis HT : nth_error tab 0 = Some (KTinv root2).
  Lemma rho_root : rho0 (enc (VS 1)) = RtoC (/ sqrt 2).
  Proof.
    rewrite (rho_coef _ _ 1%positive _ HT). cbn [coefval root2 denT denD]. change (RtoC (/ sqrt (Q2R 2)) = RtoC (/ sqrt 2)).
    replace (Q2R 2) with 2%R by (unfold Q2R; cbn; lra). reflexivity.
  Qed.
  Lemma root_pow k : Cmult (Cpow rt2 k) (Cpow (RtoC (/ sqrt 2)) k) = RtoC 1.
  Proof.
    induction k as [|k IH]; cbn [Cpow]; [ring|].
    transitivity (Cmult (Cmult rt2 (RtoC (/ sqrt 2))) (Cmult (Cpow rt2 k) (Cpow (RtoC (/ sqrt 2)) k))); [ring|].
    rewrite IH. unfold rt2. rewrite <- RtoC_mult, Rinv_r; [ring|]. pose proof (sqrt_lt_R0 2). lra.
  Qed.
  Variable c : cls.
  Variable b1 : pobj snum.
  Lemma total_ok m ks (F : list (list Z) -> C) : (forall s y, amp_at c pat b1 m s = Some y -> F s = dC y) ->
    forall ss P, total c pat b1 m tab ks ss = Some P ->
    peval rho0 P = Csum (fun s => Cmult (Cmult (meval rho0 (zmono 0 ks s)) (Cpow rt2 (zeros ks s))) (F s)) ss.
  Proof.
    intros HF. induction ss as [|s ss IH]; cbn [total]; intros P H; [injection H as <-; reflexivity|].
    destruct (amp_at c pat b1 m s) as [y|] eqn:Ey; [|discriminate H].
    destruct (norm pat tab leaf_v y) as [p|] eqn:Ep; [|discriminate H].
    destruct (strip (zeros ks s) (enc (VS 1)) p) as [p'|] eqn:E'; [|discriminate H].
    apply oadd_some in H as (a & b & [= <-] & Eb & ->). rewrite peval_add, (IH b Eb), peval_tmul. cbn [Csum fst snd].
    assert (K : peval rho0 p = F s).
    { rewrite (HF s y Ey), <- (ev_den _ _ _ _ Ep). apply (norm_ok leafc tab rho0 leaf_v); [apply rho_coef| |exact Ep].
      intros. apply leaf_v_ok; assumption. }
    rewrite (strip_ok rho0 _ _ _ _ E'), rho_root in K. rewrite <- K. f_equal.
    transitivity (Cmult (Cmult (meval rho0 (zmono 0 ks s)) (peval rho0 p')) (Cmult (Cpow rt2 (zeros ks s)) (Cpow (RtoC (/ sqrt 2)) (zeros ks s)))); [|ring].
    rewrite root_pow. ring.
  Qed.
  Lemma form_total ks : forall p F top, p + length ks <= 4 ->
    Csum (fun s => Cmult (Cmult (meval rho0 (zmono p ks s)) (Cpow rt2 (zeros ks s))) (F s)) (spins ks top) = form_of ks F z p top.
  Proof.
    induction ks as [|k ks IH]; intros p F top Hp.
    - cbn. ring.
    - destruct top as [|x top]; [destruct k; cbn; ring|]. cbn [length] in Hp. cbn [form_of spins]. rewrite Csum_flat.
      assert (K : forall w (n : nat) y u, (forall s, Cmult (Cmult (meval rho0 (zmono p (k :: ks) (y :: s))) (Cpow rt2 (zeros (k :: ks) (y :: s)))) (F (y :: s)) = Cmult u (Cmult (Cmult (meval rho0 (zmono (S p) ks s)) (Cpow rt2 (zeros ks s))) (F (y :: s)))) ->
        w = Cmult u (form_of ks (fun t => F (y :: t)) z (S p) top) ->
        Csum (fun s => Cmult (Cmult (meval rho0 (zmono p (k :: ks) s)) (Cpow rt2 (zeros (k :: ks) s))) (F s)) (map (cons y) (spins ks top)) = w).
      { intros w n y u HU ->. rewrite Csum_map, <- (IH (S p) (fun t => F (y :: t)) top) by lia. rewrite <- Csum_scale.
        apply Csum_ext. intros s _. apply HU. }
      destruct k; cbn [Csum].
      + rewrite (K (Cmult (z p false) (form_of ks (fun t => F ([(-1)%Z] :: t)) z (S p) top)) 0 [(-1)%Z] (z p false)); [| |reflexivity].
        2:{ intros s. cbn [zmono zeros Z.eqb]. rewrite meval_merge. cbn [meval fold_right]. rewrite rho_z by lia. fold (meval rho0 (zmono (S p) ks s)). ring. }
        rewrite (K (Cmult (z p true) (form_of ks (fun t => F ([1%Z] :: t)) z (S p) top)) 0 [1%Z] (z p true)); [| |reflexivity].
        2:{ intros s. cbn [zmono zeros Z.eqb Pos.eqb]. rewrite meval_merge. cbn [meval fold_right]. rewrite rho_z by lia. fold (meval rho0 (zmono (S p) ks s)). ring. }
        ring.
      + rewrite (K (Cmult (Cmult (z p false) (z p false)) (form_of ks (fun t => F ([(-2)%Z] :: t)) z (S p) top)) 0 [(-2)%Z] (Cmult (z p false) (z p false))); [| |reflexivity].
        2:{ intros s. cbn [zmono zeros Z.eqb Z.ltb Z.leb Z.compare]. rewrite !meval_merge. cbn [meval fold_right]. rewrite rho_z by lia. fold (meval rho0 (zmono (S p) ks s)). cbn [Nat.add]. ring. }
        rewrite (K (Cmult (Cmult rt2 (Cmult (z p true) (z p false))) (form_of ks (fun t => F ([0%Z] :: t)) z (S p) top)) 0 [0%Z] (Cmult rt2 (Cmult (z p true) (z p false)))); [| |reflexivity].
        2:{ intros s. cbn [zmono zeros Z.eqb Z.ltb Z.leb Z.compare]. rewrite !meval_merge. cbn [meval fold_right]. rewrite !rho_z by lia. fold (meval rho0 (zmono (S p) ks s)). cbn [Nat.add Cpow]. ring. }
        rewrite (K (Cmult (Cmult (z p true) (z p true)) (form_of ks (fun t => F ([2%Z] :: t)) z (S p) top)) 0 [2%Z] (Cmult (z p true) (z p true))); [| |reflexivity].
        2:{ intros s. cbn [zmono zeros Z.eqb Z.ltb Z.leb Z.compare]. rewrite !meval_merge. cbn [meval fold_right]. rewrite rho_z by lia. fold (meval rho0 (zmono (S p) ks s)). cbn [Nat.add]. ring. }
        ring.
      + rewrite (K (form_of ks (fun t => F (x :: t)) z (S p) top) 0 x (RtoC 1)); [ring| |ring]. intros s. cbn [zmono zeros]. ring.
  Qed.
  (** what the check says *)
  Lemma covar_form m ks top y P (F : list (list Z) -> C) : (forall s y, amp_at c pat b1 m s = Some y -> F s = dC y) ->
    length ks = 4 -> norm pat tab leaf_u y = Some P ->
    poly_ok (total c pat b1 m tab ks (spins ks top)) (norm pat tab leaf_z y) = true ->
    form_of ks F z 0 top = peval rhou P.
  Proof.
    intros HF HL HN HO. unfold poly_ok in HO. destruct (total c pat b1 m tab ks (spins ks top)) as [A|] eqn:EA; [|discriminate HO].
    destruct (norm pat tab leaf_z y) as [B|] eqn:EB; [|discriminate HO]. apply (same_eq rho0) in HO.
    rewrite (total_ok m ks F HF _ _ EA), form_total in HO by lia. rewrite HO.
    transitivity (ev leafz y).
    - apply (norm_ok leafz tab rho0 leaf_z); [apply rho_coef|exact leaf_z_ok|exact EB].
    - symmetry. apply (norm_ok leafz tab rhou leaf_u); [apply rho_coef|exact leaf_u_ok|exact HN].
  Qed.
End At.
