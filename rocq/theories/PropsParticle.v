(** * Properties C01-C11: particle *)
From Coq Require Import Reals Lra.
From Coquelicot Require Import Complex.
From Verif Require Import Base Scalar Linear Particle ParticleProofs RealNum SpecSpinor
  ParticleReal SpinorReal Ready ParticleClaims.

(** ** C01 *)
(** In every arithmetic: P is any state whatsoever of a particle object. *)
Theorem C01_set_momentum_like_fresh :
  forall (num : Num) (g : nat -> T num) (q : mom num) (m : T num) (P : particle num),
    mass P = Ok m ->
    fst (set_momentum q P) = fst (particle_new g q m) /\
    (fst (set_momentum q P) = Ok tt ->
     forall later : list (pcall num),
       fst (prun later (snd (set_momentum q P))) = fst (prun later (snd (particle_new g q m)))).
Proof. intros num. exact set_momentum_like_fresh. Qed.
Print Assumptions C01_set_momentum_like_fresh.

(** A sequence of accessors returns call by call what each of them would return as the
    first call. *)
Theorem C01_accessors_history_free :
  forall (num : Num) (q : mom num) (P P' : particle num),
    set_momentum q P = (Ok tt, P') ->
    forall later : list (pcall num), forallb is_accessor later = true ->
      fst (prun later P') = map (fun o => fst (pstep o P')) later.
Proof. intros num. exact accessors_history_free. Qed.
Print Assumptions C01_accessors_history_free.

Open Scope R_scope.
(** Non-vacuity: an object that was massless with momentum (1,0,0,1), had its |p>
    cached, was given mass 12 and a momentum that was rejected; (13,3,4,0) is then
    accepted. *)
Section Ex.
  Variables (st : bool) (eps : R).
  Hypothesis Heps : 0 <= eps.
  Notation num := (RN st eps).
  Definition qz : vec4 R := V4 1 0 0 1.
  Definition q13 : vec4 R := V4 13 3 4 0.
  Definition qbad : vec4 R := V4 (eps * 1000000000 + 13) 0 0 0.
  Lemma qz_shell : on_shell 0 qz.
  Proof. unfold on_shell, minksq; simpl; lra. Qed.
  Lemma q13_shell : on_shell 12 q13.
  Proof. unfold on_shell, minksq; simpl; lra. Qed.
  Lemma qbad_rejected (P : particle num) : rd (pa_m P) = Ok 12 ->
    fst (set_momentum (num:=num) qbad P) = Exn MassShell.
  Proof.
    intros Hm. destruct (set_momentum_real st eps qbad 12 P Hm) as [(_ & H)|(H & _)]; [exact H|].
    exfalso. unfold minksq, qbad in H; cbn [v_0 v_1 v_2 v_3] in H.
    rewrite Rabs_pos_eq in H by nra. nra.
  Qed.
  Lemma q13_accepted (P : particle num) : rd (pa_m P) = Ok 12 ->
    fst (set_momentum (num:=num) q13 P) = Ok tt.
  Proof.
    intros Hm. destruct (set_momentum_real st eps q13 12 P Hm) as [(H & _)|(_ & P' & H & _)].
    - exfalso. pose proof q13_shell as S. unfold on_shell in S. rewrite S in H.
      rewrite Rminus_diag_eq, Rabs_R0 in H by reflexivity. lra.
    - rewrite H. reflexivity.
  Qed.
End Ex.

Example C01_example : forall st eps, 0 <= eps ->
  exists P : particle (RN st eps),
    (exists h, P = snd (prun h (particle_default (num:=RN st eps) (fun _ => 0))) /\ length h = 5%nat) /\
    mass P = Ok 12 /\ fst (set_momentum (num:=RN st eps) q13 P) = Ok tt.
Proof.
  intros st eps He.
  set (h := [CSetMass (num:=RN st eps) 0; CSetMomentum (num:=RN st eps) qz; CSpinor0 RAngle;
             CSetMass (num:=RN st eps) 12; CSetMomentum (num:=RN st eps) (qbad eps)]).
  exists (snd (prun h (particle_default (num:=RN st eps) (fun _ => 0)))).
  assert (Hm : mass (snd (prun h (particle_default (num:=RN st eps) (fun _ : nat => 0)))) = Ok 12).
  { exact (mass_after [CSetMass (num:=RN st eps) 0; CSetMomentum (num:=RN st eps) qz; CSpinor0 RAngle]
             12 (qbad eps) _). }
  split; [exists h; split; reflexivity|]. split; [exact Hm|].
  apply q13_accepted; [exact He|exact Hm].
Qed.

(** ** C02 *)
(** The claim as stated is false: a cached spinor survives set_mass. *)
Theorem C02_set_mass_takes_effect_refuted :
  forall st eps, 0 < eps ->
  exists (q : vec4 R) (m m' : R) (P Pf : particle (RN st eps)) (o : pcall (RN st eps)),
    ready (num:=RN st eps) m q P /\
    particle_new (num:=RN st eps) (fun _ => 0) q m' = (Ok tt, Pf) /\
    is_accessor o = true /\
    fst (pstep o (snd (set_mass (num:=RN st eps) m' P))) <> fst (pstep o Pf).
Proof.
  intros st eps He.
  destruct (new_on_shell st eps (fun _ => 0) 0 qz ltac:(lra) qz_shell) as (P0 & H0 & R0).
  set (m' := sqrt (eps * 1000000000)).
  assert (Hm' : m' * m' = eps * 1000000000) by (apply sqrt_sqrt; lra).
  assert (Hpos : m' <> 0) by (intros E; rewrite E in Hm'; lra).
  destruct (particle_new_real st eps (fun _ => 0) qz m') as [(H & _)|(_ & Pf & H & HD)].
  { exfalso. unfold minksq, qz in H; cbn [v_0 v_1 v_2 v_3] in H.
    replace (1 * 1 - 0 * 0 - 0 * 0 - 1 * 1 - m' * m') with (- (eps * 1000000000)) in H by lra.
    rewrite Rabs_Ropp, Rabs_pos_eq in H by lra. lra. }
  exists qz, 0, m', (snd (pstep (CSpinor0 RAngle) P0)), Pf, (CSpinor0 RAngle).
  split; [apply ready_step; [exact R0|reflexivity]|]. split; [exact H|]. split; [reflexivity|].
  pose proof (spinor0_real st eps _ _ _ RAngle HD) as E1.
  pose proof (ready_spinor0 st eps _ _ _ RAngle R0) as E0. rewrite Reqb_refl in E0.
  assert (E2 : Reqb m' 0 = false) by (apply Reqb_false; exact Hpos). rewrite E2 in E1.
  assert (EL : forall v, fst (spinor0 RAngle P0) = Ok v ->
     fst (pstep (CSpinor0 RAngle) (snd (set_mass (num:=RN st eps) m' (snd (pstep (CSpinor0 RAngle) P0)))))
      = Ok (VVec v)).
  { intros v. unfold pstep, smap, sbind, spinor0, memo_vec. destruct (pa_vec P0 (RAngle, M0)) as [w|] eqn:EV.
    - intros [= ->]. cbn. rewrite EV. reflexivity.
    - destruct (let! m := rd (pa_m P0) in _) as [w| |]; cbn; intros [= ->]. reflexivity. }
  rewrite (EL _ E0). unfold pstep, smap, sbind.
  destruct (spinor0 RAngle Pf) as [r Q]. simpl in E1. subst r. discriminate.
Qed.
Print Assumptions C02_set_mass_takes_effect_refuted.

(** What does hold, in every arithmetic: if set_mass immediately follows a successful
    set_momentum (no accessor in between) and the new mass fits the momentum, all later
    calls see the new mass.  Missing: the same after accessors have been called (refuted
    above). *)
Theorem C02_set_mass_before_accessors_partial :
  forall (num : Num) g (q : mom num) m m' (P P1 : particle num),
    mass P = Ok m -> set_momentum q P = (Ok tt, P1) ->
    fst (particle_new g q m') = Ok tt ->
    forall later, fst (prun later (snd (set_mass m' P1))) = fst (prun later (snd (particle_new g q m'))).
Proof. intros num. exact set_mass_fresh. Qed.
Print Assumptions C02_set_mass_before_accessors_partial.

(** A case meeting the hypotheses with m <> m'. *)
Example C02_example : forall st eps, 0 <= eps ->
  exists P P1 : particle (RN st eps),
    mass P = Ok 12 /\ set_momentum (num:=RN st eps) q13 P = (Ok tt, P1) /\
    fst (particle_new (num:=RN st eps) (fun _ => 0) q13 (-12)) = Ok tt.
Proof.
  intros st eps He.
  set (P := particle_mass (num:=RN st eps) (fun _ => 0) 12).
  pose proof (q13_accepted st eps He P eq_refl) as H.
  destruct (set_momentum (num:=RN st eps) q13 P) as [r P1] eqn:E. simpl in H. subst r.
  exists P, P1. split; [reflexivity|]. split; [exact E|].
  assert (S : on_shell (-12) q13) by (unfold on_shell, minksq; simpl; lra).
  destruct (new_on_shell st eps (fun _ => 0) (-12) q13 He S) as (Q & H2 & _). rewrite H2. reflexivity.
Qed.

(** ** C03 *)
(** False: the rejected momentum is already stored when the check throws. *)
Theorem C03_rejected_set_momentum_unchanged_refuted :
  forall st eps, 0 <= eps ->
  exists (P P' : particle (RN st eps)) (q : vec4 R) (o : pcall (RN st eps)),
    ready (num:=RN st eps) 12 q13 P /\ set_momentum (num:=RN st eps) q P = (Exn MassShell, P') /\
    is_accessor o = true /\ fst (pstep o P') <> fst (pstep o P).
Proof.
  intros st eps He.
  destruct (new_on_shell st eps (fun _ => 0) 12 q13 He q13_shell) as (P & H & HR).
  exists P, (snd (set_momentum (num:=RN st eps) (qbad eps) P)), (qbad eps), (CGetMomentum 1).
  split; [exact HR|].
  pose proof (ready_pa_m _ _ _ HR) as Hm.
  pose proof (qbad_rejected st eps He P Hm) as HB. split.
  - destruct (set_momentum (num:=RN st eps) (qbad eps) P) as [r P']. simpl in *. subst r. reflexivity.
  - split; [reflexivity|].
    destruct (ready_momentum st eps _ _ _ HR) as (_ & A1 & _ & _).
    assert (E1 : fst (pstep (CGetMomentum (num:=RN st eps) 1) P) = Ok (VNum (num:=RN st eps) 3)).
    { unfold pstep, smap, sbind, sconst, get_momentum. cbn [Z.eqb Pos.eqb]. rewrite A1. reflexivity. }
    rewrite E1.
    assert (E2 : rd (f_p1 (snd (set_momentum (num:=RN st eps) (qbad eps) P))) = Ok 0).
    { destruct (set_momentum (num:=RN st eps) (qbad eps) P) as [r P'] eqn:E.
      unfold set_momentum, sbind, modify in E. apply update_keeps_p in E.
      unfold f_p1. cbn [snd]. rewrite E. reflexivity. }
    unfold pstep, smap, sbind, sconst, get_momentum. cbn [Z.eqb Pos.eqb]. rewrite E2.
    cbn. intros F. injection F as F. lra.
Qed.
Print Assumptions C03_rejected_set_momentum_unchanged_refuted.

(** What does hold, in every arithmetic: the mass is kept, and the next accepted
    set_momentum gives an object indistinguishable from a fresh one. *)
Theorem C03_recovery_partial :
  forall (num : Num) g (q1 q2 : mom num) m e (P P1 : particle num),
    mass P = Ok m -> set_momentum q1 P = (Exn e, P1) ->
    mass P1 = Ok m /\
    fst (set_momentum q2 P1) = fst (particle_new g q2 m) /\
    (fst (set_momentum q2 P1) = Ok tt ->
     forall later, fst (prun later (snd (set_momentum q2 P1))) = fst (prun later (snd (particle_new g q2 m)))).
Proof.
  intros num g q1 q2 m e P P1 Hm H1.
  assert (K : mass P1 = Ok m).
  { unfold set_momentum, sbind, modify in H1. apply update_keeps_mass in H1. unfold mass. rewrite H1. exact Hm. }
  split; [exact K|]. apply set_momentum_like_fresh, K.
Qed.
Print Assumptions C03_recovery_partial.
Example C03_example : forall st eps, 0 <= eps -> exists P P1 : particle (RN st eps),
  mass P = Ok 12 /\ set_momentum (num:=RN st eps) (qbad eps) P = (Exn MassShell, P1).
Proof.
  intros st eps He. exists (particle_mass (num:=RN st eps) (fun _ => 0) 12).
  pose proof (qbad_rejected st eps He (particle_mass (num:=RN st eps) (fun _ => 0) 12) eq_refl) as H.
  destruct (set_momentum (num:=RN st eps) (qbad eps) _) as [r P1]. simpl in H; subst r.
  exists P1. split; reflexivity.
Qed.

(** ** C04 *)
Theorem C04_mass_shell_guard :
  forall st eps (q : vec4 R) (m : R) (P : particle (RN st eps)) g,
    mass P = Ok m ->
    let off := Rabs (v_0 q * v_0 q - v_1 q * v_1 q - v_2 q * v_2 q - v_3 q * v_3 q - m * m) in
    (fst (set_momentum (num:=RN st eps) q P) = Exn MassShell <-> off > eps * 1000000000) /\
    (fst (set_momentum (num:=RN st eps) q P) = Ok tt <-> off <= eps * 1000000000) /\
    (fst (particle_new (num:=RN st eps) g q m) = Exn MassShell <-> off > eps * 1000000000) /\
    (fst (particle_new (num:=RN st eps) g q m) = Ok tt <-> off <= eps * 1000000000).
Proof.
  intros st eps q m P g Hm off.
  assert (K : fst (particle_new (num:=RN st eps) g q m) = fst (set_momentum (num:=RN st eps) q P)).
  { symmetry. apply (set_momentum_like_fresh g q m P Hm). }
  rewrite K.
  destruct (set_momentum_real st eps q m P Hm) as [(H & E)|(H & P' & E & _)];
    unfold minksq in H; fold off in H; rewrite E; cbn [fst].
  - repeat split; intros F; try assumption; try reflexivity; try discriminate; try lra.
  - repeat split; intros F; try assumption; try reflexivity; try discriminate; try lra.
Qed.
Print Assumptions C04_mass_shell_guard.
Example C04_example : forall st eps, 0 <= eps ->
  fst (particle_new (num:=RN st eps) (fun _ => 0) q13 12) = Ok tt /\
  fst (set_momentum (num:=RN st eps) (qbad eps) (particle_mass (num:=RN st eps) (fun _ => 0) 12)) = Exn MassShell.
Proof.
  intros st eps He. split; [|apply qbad_rejected; [exact He|reflexivity]].
  destruct (new_on_shell st eps (fun _ => 0) 12 q13 He q13_shell) as (P & H & _). rewrite H. reflexivity.
Qed.

(** ** C05 *)
(** In every arithmetic.  [ready m q P]: see Ready.v. *)
Theorem C05_spinor_usage_errors :
  forall (num : Num) (m : T num) (q : mom num) (P : particle num), ready m q P ->
  forall (d : side) (j : Z) (u : bool),
    (teqb m (tZ 0) = true -> exists v, fst (spinor0 d P) = Ok v) /\
    (teqb m (tZ 0) = false -> fst (spinor0 d P) = Exn MassNonzero) /\
    (~ (j = 1 \/ j = -1)%Z -> fst (spinor2 d j u P) = Exn BadSpin) /\
    ((j = 1 \/ j = -1)%Z -> teqb m (tZ 0) = true -> fst (spinor2 d j u P) = Exn MassZero) /\
    ((j = 1 \/ j = -1)%Z -> teqb m (tZ 0) = false -> exists v, fst (spinor2 d j u P) = Ok v) /\
    spinor1 d j P = spinor2 d j true P /\
    (* a throwing accessor leaves the object as it was *)
    (forall e P', spinor0 d P = (Exn e, P') -> P' = P) /\
    (forall e P', spinor2 d j u P = (Exn e, P') -> P' = P).
Proof.
  intros num m q P HR d j u.
  rewrite (ready_spinor0_gen _ _ _ d HR), (ready_spinor2_gen _ _ _ d j u HR).
  split; [intros ->; eauto|]. split; [intros ->; reflexivity|].
  split; [intros H|].
  { destruct (negb (j =? 1)%Z && negb (j =? -1)%Z) eqn:E; [reflexivity|].
    apply spin_test_f in E. contradiction. }
  assert (S : (j = 1 \/ j = -1)%Z -> negb (j =? 1)%Z && negb (j =? -1)%Z = false) by apply spin_test_f.
  split; [intros H ->; rewrite (S H); reflexivity|].
  split; [intros H ->; rewrite (S H); eauto|].
  split; [reflexivity|].
  split; intros e P'; [apply spinor0_throw|apply spinor2_throw].
Qed.
Print Assumptions C05_spinor_usage_errors.
Example C05_example : forall st eps, 0 <= eps ->
  (exists P, ready (num:=RN st eps) 12 q13 P) /\ (exists P, ready (num:=RN st eps) 0 qz P).
Proof.
  intros st eps He.
  destruct (new_on_shell st eps (fun _ => 0) 12 q13 He q13_shell) as (P & _ & H).
  destruct (new_on_shell st eps (fun _ => 0) 0 qz He qz_shell) as (P' & _ & H'). eauto.
Qed.

(** ** C06 *)
Theorem C06_momentum_matrices :
  forall st eps (m : R) (q : vec4 R) (P : particle (RN st eps)), ready (num:=RN st eps) m q P ->
    fst (umat P) = Ok (cmatrix_of_mom (num:=RN st eps) q true) /\
    fst (lmat P) = Ok (cmatrix_of_mom (num:=RN st eps) q false).
Proof. intros st eps m q P H. split; [apply (ready_umat _ _ m), H|apply (ready_lmat _ _ m), H]. Qed.
Print Assumptions C06_momentum_matrices.

(** ** C07 *)
Theorem C07_determinant_is_mass_squared :
  forall st eps (m : R) (q : vec4 R) (P : particle (RN st eps)), ready (num:=RN st eps) m q P ->
    0 <= eps ->
    let E2p2 := v_0 q * v_0 q - v_1 q * v_1 q - v_2 q * v_2 q - v_3 q * v_3 q in
    (let! M := fst (umat P) in cm_det M) = Ok E2p2 /\
    (let! M := fst (lmat P) in cm_det M) = Ok E2p2 /\
    (* hence the mass squared, up to the tolerance set_momentum allows *)
    Rabs (E2p2 - m * m) <= eps * 1000000000.
Proof.
  intros st eps m q P H He E.
  rewrite (ready_umat _ _ m q P H), (ready_lmat _ _ m q P H). cbn [obind].
  rewrite !det_real by exact He.
  repeat split. exact (ready_shell _ _ _ _ _ H).
Qed.
Print Assumptions C07_determinant_is_mass_squared.

(** ** C08 *)
Theorem C08_clifford :
  forall st eps (m1 m2 : R) (q1 q2 : vec4 R) (P1 P2 : particle (RN st eps)),
    ready (num:=RN st eps) m1 q1 P1 -> ready (num:=RN st eps) m2 q2 P2 ->
    exists l1 u1 l2 u2 d,
      fst (lmat P1) = Ok l1 /\ fst (umat P1) = Ok u1 /\ fst (lmat P2) = Ok l2 /\ fst (umat P2) = Ok u2 /\
      dot P1 P2 = Ok d /\
      d = v_0 q1 * v_0 q2 - v_1 q1 * v_1 q2 - v_2 q1 * v_2 q2 - v_3 q1 * v_3 q2 /\
      cm_add (cm_mul l1 u2) (cm_mul l2 u1) = scalar_mat st eps (2 * d) /\
      cm_add (cm_mul u1 l2) (cm_mul u2 l1) = scalar_mat st eps (2 * d).
Proof.
  intros st eps m1 m2 q1 q2 P1 P2 H1 H2.
  rewrite (ready_umat _ _ _ _ _ H1), (ready_lmat _ _ _ _ _ H1), (ready_umat _ _ _ _ _ H2),
    (ready_lmat _ _ _ _ _ H2), (ready_dot _ _ _ _ _ _ _ _ H1 H2).
  do 5 eexists. do 5 (split; [reflexivity|]). split; [reflexivity|].
  split; [apply (clifford_real st eps q1 q2 false)|apply (clifford_real st eps q1 q2 true)].
Qed.
Print Assumptions C08_clifford.
Example C06_C08_example : forall st eps, 0 <= eps ->
  exists P1 P2, ready (num:=RN st eps) 12 q13 P1 /\ ready (num:=RN st eps) 0 qz P2.
Proof.
  intros st eps He. destruct (C05_example st eps He) as [(P & H) (P' & H')]. eauto.
Qed.

(** ** C09 *)
Theorem C09_massless_spinors :
  forall st eps (q : vec4 R) (P : particle (RN st eps)), ready (num:=RN st eps) 0 q P ->
    on_shell 0 q -> 0 <= v_0 q ->
    exists lo up ra la ls rs,
      fst (lmat P) = Ok lo /\ fst (umat P) = Ok up /\
      fst (spinor0 RAngle P) = Ok ra /\ fst (spinor0 LAngle P) = Ok la /\
      fst (spinor0 LSquare P) = Ok ls /\ fst (spinor0 RSquare P) = Ok rs /\
      massless_algebra st eps lo up ra la ls rs.
Proof.
  intros st eps q P H Hs H0.
  rewrite (ready_umat _ _ _ _ _ H), (ready_lmat _ _ _ _ _ H), !(ready_spinor0 _ _ _ _ _ _ H), Reqb_refl.
  do 6 eexists. do 6 (split; [reflexivity|]). apply massless_algebra_real; assumption.
Qed.
Print Assumptions C09_massless_spinors.
Example C09_example : forall st eps, 0 <= eps ->
  exists P, ready (num:=RN st eps) 0 qz P /\ on_shell 0 qz /\ 0 <= v_0 qz.
Proof.
  intros st eps He. destruct (C05_example st eps He) as [_ (P & H)].
  exists P. split; [exact H|]. split; [apply qz_shell|simpl; lra].
Qed.

(** ** C10 *)
Theorem C10_massive_spinors :
  forall st eps (m : R) (q : vec4 R) (P : particle (RN st eps)), ready (num:=RN st eps) m q P ->
    m <> 0 -> on_shell m q -> 0 <= v_0 q ->
    exists lo up ra la ls rs,
      fst (lmat P) = Ok lo /\ fst (umat P) = Ok up /\
      (forall I u, is_spin I ->
         fst (spinor2 RAngle I u P) = Ok (ra I u) /\ fst (spinor2 LAngle I u P) = Ok (la I u) /\
         fst (spinor2 LSquare I u P) = Ok (ls I u) /\ fst (spinor2 RSquare I u P) = Ok (rs I u)) /\
      massive_algebra st eps (Rabs m) lo up ra la ls rs.
Proof.
  intros st eps m q P H Hm Hs H0.
  rewrite (ready_umat _ _ _ _ _ H), (ready_lmat _ _ _ _ _ H).
  exists (cmatrix_of_mom (num:=RN st eps) q false), (cmatrix_of_mom (num:=RN st eps) q true),
    (rsp st eps q RAngle), (rsp st eps q LAngle), (rsp st eps q LSquare), (rsp st eps q RSquare).
  split; [reflexivity|]. split; [reflexivity|]. split.
  - intros I u HI. rewrite !(ready_spinor2 _ _ _ _ _ _ _ _ H).
    assert (E : negb (I =? 1)%Z && negb (I =? -1)%Z = false) by (apply spin_test_f; exact HI).
    assert (F : Reqb m 0 = false) by (apply Reqb_false; exact Hm).
    rewrite E, F. auto.
  - apply massive_algebra_real; assumption.
Qed.
Print Assumptions C10_massive_spinors.
Example C10_example : forall st eps, 0 <= eps ->
  exists P, ready (num:=RN st eps) 12 q13 P /\ on_shell 12 q13 /\ 0 <= v_0 q13 /\ Rabs 12 = 12.
Proof.
  intros st eps He. destruct (C05_example st eps He) as [(P & H) _].
  exists P. split; [exact H|]. split; [apply q13_shell|]. split; [simpl; lra|apply Rabs_pos_eq; lra].
Qed.

(** ** C11 *)
Theorem C11_angles_reproduce_momentum :
  forall st eps (m : R) (q : vec4 R) (P : particle (RN st eps)), 0 <= eps -> ready (num:=RN st eps) m q P ->
    0 <= v_0 q * v_0 q - v_1 q * v_1 q - v_2 q * v_2 q - v_3 q * v_3 q -> 0 <= v_0 q ->
    test_angles P = Ok true.
Proof. exact test_angles_real. Qed.
Print Assumptions C11_angles_reproduce_momentum.
Example C11_example : forall st eps, 0 <= eps ->
  exists P, ready (num:=RN st eps) 12 q13 P /\
    0 <= v_0 q13 * v_0 q13 - v_1 q13 * v_1 q13 - v_2 q13 * v_2 q13 - v_3 q13 * v_3 q13 /\ 0 <= v_0 q13.
Proof.
  intros st eps He. destruct (C05_example st eps He) as [(P & H) _].
  exists P. split; [exact H|]. split; simpl; lra.
Qed.
