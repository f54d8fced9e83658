(** * Lemmas behind the particle properties *)
From Coq Require Import Reals Lra Nsatz.
From Coquelicot Require Import Complex.
From Verif Require Import Base Scalar Linear Particle ParticleProofs RealNum SpecSpinor
  ParticleReal SpinorReal Ready.

Section Generic.
  Context {num : Num}.
  Notation T := (T num).
  Notation particle := (particle num).

  Lemma reset_pa_m (P : particle) : pa_m (reset_caches P) = pa_m P.
  Proof. reflexivity. Qed.
  Lemma reset_pa_p (P : particle) : pa_p (reset_caches P) = pa_p P.
  Proof. reflexivity. Qed.
  Lemma peq_trans (P Q U : particle) : peq P Q -> peq Q U -> peq P U.
  Proof. intros [] []; constructor; try congruence; intros; congruence. Qed.
  Lemma peq_sym (P Q : particle) : peq P Q -> peq Q P.
  Proof. intros []; constructor; try congruence; intros; congruence. Qed.
  Lemma peq_reset_uncached (P : particle) : peq (reset_caches P) (uncached P).
  Proof.
    constructor; try reflexivity; intros k; [apply reset_mat|apply reset_vec].
  Qed.
  Lemma reset_of_w_m (P Q : particle) c :
    pa_p P = pa_p Q -> pa_pmag P = pa_pmag Q ->
    pa_pxymag P = pa_pxymag Q -> pa_theta P = pa_theta Q -> pa_phi P = pa_phi Q ->
    pa_c P = pa_c Q -> pa_s P = pa_s Q -> pa_sc P = pa_sc Q -> pa_rtp P = pa_rtp Q ->
    pa_rtm P = pa_rtm Q -> peq (w_m c (reset_caches P)) (w_m c (reset_caches Q)).
  Proof.
    intros H2 H3 H4 H5 H6 H7 H8 H9 H10 H11.
    apply (peq_trans _ (w_m c (uncached P))); [apply peq_w_m, peq_reset_uncached|].
    apply (peq_trans _ (w_m c (uncached Q))); [|apply peq_w_m, peq_sym, peq_reset_uncached].
    unfold w_m, uncached. cbn [pa_p pa_pmag pa_pxymag pa_theta pa_phi pa_c pa_s pa_sc pa_rtp pa_rtm pa_mat pa_vec].
    rewrite H2, H3, H4, H5, H6, H7, H8, H9, H10, H11. apply peq_refl.
  Qed.

  (** What update computes does not depend on the mass, only whether it throws. *)
  Lemma update_mass_indep (P Q P' Q' : particle) :
    pa_p P = pa_p Q -> update P = (Ok tt, P') -> update Q = (Ok tt, Q') ->
    forall m, peq (w_m (Val m) P') (w_m (Val m) Q').
  Proof.
    intros Hp HP HQ m. revert HP HQ.
    unfold update, sbind, modify, get, w_pxymag, w_pmag, f_p0, f_p1, f_p2, f_p3.
    cbn [rd v_0 v_1 v_2 v_3 pa_p pa_m pa_pmag pa_pxymag]. rewrite Hp.
    destruct (rd (v_1 (pa_p Q))) as [p1| |] eqn:E1; try (cbn; discriminate).
    destruct (rd (v_2 (pa_p Q))) as [p2| |] eqn:E2; try (cbn; discriminate).
    destruct (rd (v_3 (pa_p Q))) as [p3| |] eqn:E3; try (cbn; discriminate).
    destruct (rd (v_0 (pa_p Q))) as [p0| |] eqn:E0; try (cbn; discriminate).
    cbn [rd v_0 v_1 v_2 v_3 pa_p pa_m pa_pmag pa_pxymag].
    destruct (rd (pa_m P)) as [mP| |]; try (cbn; discriminate).
    destruct (rd (pa_m Q)) as [mQ| |]; try (cbn; discriminate).
    destruct (tgtb (tabs (_ - mP * mP)%ld) shell_tol); [cbn; discriminate|].
    destruct (tgtb (tabs (_ - mQ * mQ)%ld) shell_tol); [cbn; discriminate|].
    cbn [rd w_theta w_phi pa_theta pa_phi pa_p pa_m pa_pmag pa_pxymag].
    unfold slift. destruct (polar _ _) as [s|e|u]; cbn [fst snd]; [|discriminate..].
    intros HP HQ. injection HP as <-. injection HQ as <-.
    apply reset_of_w_m; first [reflexivity | exact Hp].
  Qed.

  Lemma update_keeps_mass (P P' : particle) r : update P = (r, P') -> pa_m P' = pa_m P.
  Proof.
    unfold update, sbind, modify, get, w_pxymag, w_pmag, f_p0, f_p1, f_p2, f_p3.
    cbn [rd v_0 v_1 v_2 v_3 pa_p pa_m pa_pmag pa_pxymag].
    destruct (rd (v_1 (pa_p P))) as [p1| |]; try (intros [= <- <-]; reflexivity).
    destruct (rd (v_2 (pa_p P))) as [p2| |]; try (intros [= <- <-]; reflexivity).
    destruct (rd (v_3 (pa_p P))) as [p3| |]; try (intros [= <- <-]; reflexivity).
    destruct (rd (v_0 (pa_p P))) as [p0| |]; try (intros [= <- <-]; reflexivity).
    cbn [rd v_0 v_1 v_2 v_3 pa_p pa_m pa_pmag pa_pxymag].
    destruct (rd (pa_m P)) as [m| |] eqn:Em; try (intros [= <- <-]; reflexivity).
    match goal with |- context [if ?b then sthrow _ else _] => destruct b end;
      unfold sthrow; try (intros [= <- <-]; reflexivity).
    cbn [rd w_theta w_phi pa_theta pa_phi pa_p pa_m pa_pmag pa_pxymag].
    unfold slift. destruct (polar _ _) as [s|e|u]; cbn [fst snd]; intros H; injection H as <- <-;
      [rewrite reset_pa_m|..]; reflexivity.
  Qed.
  Lemma update_keeps_p (P P' : particle) r : update P = (r, P') -> pa_p P' = pa_p P.
  Proof.
    unfold update, sbind, modify, get, w_pxymag, w_pmag, f_p0, f_p1, f_p2, f_p3.
    cbn [rd v_0 v_1 v_2 v_3 pa_p pa_m pa_pmag pa_pxymag].
    destruct (rd (v_1 (pa_p P))) as [p1| |]; try (intros [= <- <-]; reflexivity).
    destruct (rd (v_2 (pa_p P))) as [p2| |]; try (intros [= <- <-]; reflexivity).
    destruct (rd (v_3 (pa_p P))) as [p3| |]; try (intros [= <- <-]; reflexivity).
    destruct (rd (v_0 (pa_p P))) as [p0| |]; try (intros [= <- <-]; reflexivity).
    cbn [rd v_0 v_1 v_2 v_3 pa_p pa_m pa_pmag pa_pxymag].
    destruct (rd (pa_m P)) as [m| |] eqn:Em; try (intros [= <- <-]; reflexivity).
    match goal with |- context [if ?b then sthrow _ else _] => destruct b end;
      unfold sthrow; try (intros [= <- <-]; reflexivity).
    cbn [rd w_theta w_phi pa_theta pa_phi pa_p pa_m pa_pmag pa_pxymag].
    unfold slift. destruct (polar _ _) as [s|e|u]; cbn [fst snd]; intros H; injection H as <- <-;
      [rewrite reset_pa_p|..]; reflexivity.
  Qed.
  Lemma w_m_idem (c : cell num) (P : particle) x : pa_m P = x -> w_m x P = P.
  Proof. intros <-. destruct P; reflexivity. Qed.

  Lemma snd_smap {S A B} (f : A -> B) (x : ST S A) s : snd (smap f x s) = snd (x s).
  Proof. unfold smap, sbind. destruct (x s) as [[a|e|u] s']; reflexivity. Qed.
  Lemma mass_after h m q (P : particle) :
    mass (snd (prun (h ++ [CSetMass m; CSetMomentum q]) P)) = Ok m.
  Proof.
    rewrite prun_app. set (Q := snd (prun h P)). clearbody Q.
    cbn [prun]. replace (pstep (CSetMass m) Q) with (Ok (VUnit (num:=num)), w_m (Val m) Q) by reflexivity.
    cbn [fst snd]. pose proof (snd_smap (fun _ => VUnit (num:=num)) (set_momentum q) (w_m (Val m) Q)) as K.
    change (smap (fun _ => VUnit (num:=num)) (set_momentum q)) with (pstep (CSetMomentum q)) in K.
    destruct (pstep (CSetMomentum q) (w_m (Val m) Q)) as [r Q1]. cbn [snd] in K |- *. subst Q1.
    destruct (set_momentum q (w_m (Val m) Q)) as [r1 Q1] eqn:E. cbn [snd].
    unfold set_momentum, sbind, modify in E. apply update_keeps_mass in E.
    unfold mass. rewrite E. reflexivity.
  Qed.

  (** C02, the part that holds: directly after a successful set_momentum. *)
  Lemma set_mass_fresh g q m m' (P P1 : particle) :
    mass P = Ok m -> set_momentum q P = (Ok tt, P1) ->
    fst (particle_new g q m') = Ok tt ->
    forall h, fst (prun h (snd (set_mass m' P1))) = fst (prun h (snd (particle_new g q m'))).
  Proof.
    intros Hm H1 H2 h. destruct (particle_new g q m') as [r Q] eqn:E. simpl in H2. subst r.
    cbn [snd set_mass modify].
    unfold particle_new in E. unfold set_momentum, sbind, modify in H1.
    assert (HQ : w_m (Val m') Q = Q).
    { apply w_m_idem; [exact (Val m')|]. apply update_keeps_mass in E. exact E. }
    rewrite <- HQ. apply prun_peq.
    refine (update_mass_indep _ _ _ _ _ H1 E m'). reflexivity.
  Qed.

  (** A throwing spinor accessor changes nothing. *)
  Lemma memo_vec_throw k f (P P' : particle) e : memo_vec k f P = (Exn e, P') -> P' = P.
  Proof.
    unfold memo_vec. destruct (pa_vec P k); [discriminate|].
    destruct (f P); intros H; try discriminate; congruence.
  Qed.
  Lemma spinor0_throw d (P P' : particle) e : spinor0 d P = (Exn e, P') -> P' = P.
  Proof. apply memo_vec_throw. Qed.
  Lemma spinor2_throw d j u (P P' : particle) e : spinor2 d j u P = (Exn e, P') -> P' = P.
  Proof.
    unfold spinor2. destruct (_ && _); [|apply memo_vec_throw]. unfold sthrow. congruence.
  Qed.

  Lemma ready_pa_m m q (P : particle) : ready m q P -> rd (pa_m P) = Ok m.
  Proof.
    intros (P0 & P1 & h & H1 & H2 & H3 & ->).
    destruct (set_momentum_ok_empty _ _ _ H2) as [E1 E2].
    destruct (prun_transparent h P1 (empty_coh _ E1 E2) H3) as (_ & _ & U).
    assert (K : pa_m (snd (prun h P1)) = pa_m P1).
    { change (pa_m (uncached (snd (prun h P1))) = pa_m (uncached P1)). rewrite U. reflexivity. }
    rewrite K. unfold set_momentum, sbind, modify in H2. apply update_keeps_mass in H2.
    rewrite H2. exact H1.
  Qed.
  Lemma coh_memo_vec k f (P : particle) : coh P -> (forall P, f P = vec_value k P) ->
    fst (memo_vec k f P) = vec_value k P.
  Proof.
    intros HC Hf. destruct (transparent_memo_vec k f Hf P HC) as (H & _ & _). rewrite H.
    unfold memo_vec. cbn [uncached pa_vec]. unfold no_vec. rewrite Hf, vec_value_uncached.
    destruct (vec_value k P); reflexivity.
  Qed.
  Lemma ready_spinor0_gen m q (P : particle) d : ready m q P ->
    fst (spinor0 d P) = if teqb m (tZ 0) then Ok (spinor_value (d, M0) P) else Exn MassNonzero.
  Proof.
    intros HR. unfold spinor0. rewrite coh_memo_vec; [|exact (ready_coh _ _ _ HR)|reflexivity].
    unfold vec_value. rewrite (ready_pa_m _ _ _ HR). cbn [obind snd].
    destruct (teqb m (tZ 0)); reflexivity.
  Qed.
  Lemma ready_spinor2_gen m q (P : particle) d j u : ready m q P ->
    fst (spinor2 d j u P) = if negb (j =? 1)%Z && negb (j =? -1)%Z then Exn BadSpin
      else if teqb m (tZ 0) then Exn MassZero else Ok (spinor_value (d, kind_of j u) P).
  Proof.
    intros HR. unfold spinor2. destruct (_ && _); [reflexivity|].
    rewrite coh_memo_vec; [|exact (ready_coh _ _ _ HR)|].
    - unfold vec_value. rewrite (ready_pa_m _ _ _ HR). cbn [obind snd].
      unfold kind_of; destruct (j =? -1)%Z, u; destruct (teqb m (tZ 0)); reflexivity.
    - intros Q. unfold vec_value, kind_of. destruct (j =? -1)%Z, u; reflexivity.
  Qed.
  Lemma spin_test j : negb (j =? 1)%Z && negb (j =? -1)%Z = true <-> j <> 1%Z /\ j <> (-1)%Z.
  Proof. rewrite andb_true_iff, !negb_true_iff, !Z.eqb_neq. reflexivity. Qed.
  Lemma spin_test_f j : negb (j =? 1)%Z && negb (j =? -1)%Z = false <-> j = 1%Z \/ j = (-1)%Z.
  Proof. rewrite andb_false_iff, !negb_false_iff, !Z.eqb_eq. reflexivity. Qed.
End Generic.

Open Scope R_scope.
Section RealClaims.
  Variables (st : bool) (eps : R).
  Notation num := (RN st eps).
  Notation rmom := (vec4 R).
  Notation particle := (particle num).

  Lemma det_real (q : rmom) b : 0 <= eps -> cm_det (cmatrix_of_mom (num:=num) q b) = Ok (minksq q).
  Proof.
    intros He. unfold cm_det.
    match goal with |- (if tgtb (tabs (cim ?d)) _ then _ else _) = _ => set (D := d) end.
    assert (HD : D = (minksq q, 0)).
    { unfold D. destruct b; to_reals; unfold minksq; ring. }
    rewrite HD. cbn -[Rgtb Rmult]. rewrite Rabs_R0.
    destruct (Rgtb 0 (eps * 1000000)) eqn:E; [apply Rgtb_true in E; lra|reflexivity].
  Qed.
  Definition minkdot (p q : rmom) : R := v_0 p * v_0 q - v_1 p * v_1 q - v_2 p * v_2 q - v_3 p * v_3 q.
  Lemma clifford_real (p q : rmom) b :
    cm_add (cm_mul (cmatrix_of_mom (num:=num) p b) (cmatrix_of_mom (num:=num) q (negb b)))
           (cm_mul (cmatrix_of_mom (num:=num) q b) (cmatrix_of_mom (num:=num) p (negb b)))
    = scalar_mat st eps (2 * minkdot p q).
  Proof. unfold minkdot. destruct b; to_reals; ring. Qed.

  Lemma ready_momentum m (q : rmom) (P : particle) : ready (num:=num) m q P ->
    rd (f_p0 P) = Ok (v_0 q) /\ rd (f_p1 P) = Ok (v_1 q) /\ rd (f_p2 P) = Ok (v_2 q) /\
    rd (f_p3 P) = Ok (v_3 q).
  Proof.
    intros HR.
    assert (K : forall f : particle -> cell num, (forall P, f (uncached P) = f P) ->
              (forall P1, described m q P1 -> exists v, rd (f P1) = Ok v) -> True) by auto. clear K.
    assert (Tr : forall f : particle -> cell num, (forall P, f (uncached P) = f P) ->
              transparent (sconst (fun P => rd (f P)))).
    { intros f Hf. apply transparent_const. intros Q. rewrite Hf. reflexivity. }
    repeat split.
    - destruct (ready_described st eps _ _ _ _ (Tr f_p0 (fun _ => eq_refl)) HR) as (_ & P1 & HD & E).
      simpl in E. rewrite E. apply HD.
    - destruct (ready_described st eps _ _ _ _ (Tr f_p1 (fun _ => eq_refl)) HR) as (_ & P1 & HD & E).
      simpl in E. rewrite E. apply HD.
    - destruct (ready_described st eps _ _ _ _ (Tr f_p2 (fun _ => eq_refl)) HR) as (_ & P1 & HD & E).
      simpl in E. rewrite E. apply HD.
    - destruct (ready_described st eps _ _ _ _ (Tr f_p3 (fun _ => eq_refl)) HR) as (_ & P1 & HD & E).
      simpl in E. rewrite E. apply HD.
  Qed.
  Lemma ready_dot m1 (q1 : rmom) P1 m2 (q2 : rmom) P2 :
    ready (num:=num) m1 q1 P1 -> ready (num:=num) m2 q2 P2 ->
    dot (num:=num) P1 P2 = Ok (minkdot q1 q2).
  Proof.
    intros H1 H2. destruct (ready_momentum _ _ _ H1) as (A0 & A1 & A2 & A3).
    destruct (ready_momentum _ _ _ H2) as (B0 & B1 & B2 & B3).
    unfold dot. rewrite A0, A1, A2, A3, B0, B1, B2, B3. reflexivity.
  Qed.

  Lemma timelike_energy (q : rmom) : 0 <= minksq q -> 0 <= v_0 q -> Pmag q <= v_0 q.
  Proof.
    intros H H0. apply (energy_ge_pmag (sqrt (minksq q)) q); [|exact H0].
    unfold on_shell. symmetry. apply sqrt_sqrt, H.
  Qed.
  Lemma test_angles_real m (q : rmom) (P : particle) :
    0 <= eps -> ready (num:=num) m q P -> 0 <= minksq q -> 0 <= v_0 q ->
    test_angles P = Ok true.
  Proof.
    intros He HR Hs H0.
    destruct (ready_described st eps _ _ _ _ (transparent_test_angles st eps) HR) as (_ & P1 & HD & E).
    simpl in E. rewrite E. clear E. unfold test_angles.
    rewrite (de_theta _ _ _ _ _ HD), (de_phi _ _ _ _ _ HD), (de_pmag _ _ _ _ _ HD), (de_p0 _ _ _ _ _ HD),
      (de_p1 _ _ _ _ _ HD), (de_p2 _ _ _ _ _ HD), (de_p3 _ _ _ _ _ HD), (de_rtp _ _ _ _ _ HD),
      (de_rtm _ _ _ _ _ HD). cbn [obind].
    pose proof (timelike_energy q Hs H0) as HE. pose proof (Pmag_nonneg q) as HP.
    change (@cmul num) with Cmult. change (@cadd num) with Cplus. change (@cconj num) with Cconj.
    change (@cre num) with (@fst R R). change (@tdiv num) with Rdiv. change (@tsub num) with Rminus.
    change (@tmul num) with Rmult. change (@tabs num) with Rabs. change (@tgtb num) with Rgtb.
    change (@tsin num) with sin. change (@tcos num) with cos. change (@tZ num 2) with 2.
    change (angles_tol (num:=num)) with (eps * 1000000).
    destruct (Pmag_theta q) as [T1 T2]. destruct (Pxy_phi q) as [S1 S2].
    rewrite T2, S1, S2, T1.
    assert (E0 : fst (Cplus (Cmult (rtp q, 0) (Cconj (rtp q, 0))) (Cmult (rtm q, 0) (Cconj (rtm q, 0)))) / 2 = v_0 q).
    { cbn -[Rplus Rmult Ropp Rminus Rdiv Rinv IZR rtp rtm].
      assert (A : rtp q * rtp q = v_0 q + Pmag q) by (apply sqrt_sqrt; lra).
      assert (B : rtm q * rtm q = v_0 q - Pmag q) by (apply sqrt_sqrt; lra). lra. }
    rewrite E0.
    assert (Z : forall x, Rgtb (Rabs (x - x)) (eps * 1000000) = false).
    { intros x. apply Rgtb_false. rewrite Rminus_diag_eq, Rabs_R0 by reflexivity. lra. }
    rewrite !Z. reflexivity.
  Qed.

  Lemma new_on_shell g m (q : rmom) : 0 <= eps -> on_shell m q ->
    exists P, particle_new (num:=num) g q m = (Ok tt, P) /\ ready (num:=num) m q P.
  Proof.
    intros He Hs. destruct (particle_new_real st eps g q m) as [(H & _)|(_ & P & H & _)].
    - exfalso. unfold on_shell in Hs. rewrite Hs in H.
      rewrite Rminus_diag_eq, Rabs_R0 in H by reflexivity. lra.
    - exists P. split; [exact H|]. apply (ready_new g); exact H.
  Qed.
End RealClaims.
