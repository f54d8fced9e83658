(** * Two and four gluons: from polynomials to amp2

    Used in proofs only. *)
From Coq Require Import Reals QArith Qreals List Bool String Lra Lia FunctionalExtensionality.
From Coquelicot Require Import Complex.
From Verif Require Import Base Scalar RealNum Linear Integers Particle Sproduct Propagator Process
  ParticleProofs SpecSpinor ParticleReal SpinorReal Ready ParticleClaims SpecSproduct SpecChain ChainReal Lorentz
  WorldProofs Lang LangFrame Pure PureProofs ReadOnly Sym SymEq SMNames SMRun SMTwins SMMasses SMAll SMChecks SMState PropsClasses PropsConstruct
  SMAmp2 SpinColour SMInv SMRebuild PropsRebuild PropsAmp2 PropsGluons Poly Covariant CovReal PropsLorentz PropsQED PropsWidth
  Feynman FeynmanAlg FeynmanSum FeynmanLegs FeynmanFlat FeynmanTable FeynmanMatch FeynmanMirror PropsFeynman
  BosonSpec BosonHom Tower BosonCode BosonCodeOk BosonKin BosonFrame BosonSetup BosonMatch GluonTable.
Import ListNotations.
Close Scope Q_scope.
Open Scope nat_scope.
Open Scope R_scope.

Lemma qcd_agree : forallb squares_agree qcd_entries = true.
Proof. vm_cast_no_check (eq_refl true). Qed.
Lemma qcd_checked : forallb (fun x => base_check (snd x)) qcd_entries = true.
Proof. vm_cast_no_check (eq_refl true). Qed.
Definition q_places : list nat := Eval vm_compute in map (fun x => class_at (c_name (b_cls (snd x))) sm_classes) qcd_entries.
Lemma q_places_ok : map (fun x => b_cls (snd x)) qcd_entries = map (fun i => nth i sm_classes eemm) q_places.
Proof. vm_cast_no_check (eq_refl (map (fun x => b_cls (snd x)) qcd_entries)). Qed.
Lemma q_places_in : forallb (fun i => Nat.ltb i (length sm_classes)) q_places = true.
Proof. vm_cast_no_check (eq_refl true). Qed.
Lemma qcd_sm g e : In (g, e) qcd_entries -> In (b_cls e) sm_classes.
Proof.
  intros H. apply (in_map (fun x => b_cls (snd x))) in H. rewrite q_places_ok in H. cbn [snd] in H. apply in_map_iff in H as (i & Hi & H). rewrite <- Hi.
  apply nth_In, Nat.ltb_lt. exact (proj1 (forallb_forall _ _) q_places_in i H).
Qed.
Lemma qcd_named : forallb (fun x => existsb (fun g => String.eqb (g_name g) (g_name (fst x))) gluon_processes && String.eqb (c_name (b_cls (snd x))) (g_name (fst x)) &&
  Nat.ltb (g_G (fst x)) 3 && Nat.ltb (g_A (fst x)) 3 && Nat.ltb (g_B (fst x)) 3 && Nat.ltb (g_q (fst x)) 4) qcd_entries = true.
Proof. vm_cast_no_check (eq_refl true). Qed.
Lemma qcd_gluons g e : In (g, e) qcd_entries -> In g gluon_processes.
Proof.
  intros H. unfold qcd_entries in H. cbv zeta in H. cbn [find gluon_processes g_name String.eqb Ascii.eqb Bool.eqb] in H. cbn [In] in H.
  repeat destruct H as [H|H]; try contradiction; apply pinj in H as [<- _]; unfold gluon_processes; cbn [In]; tauto.
Qed.

(** ** Real values *)
Lemma weval_real rho : (forall l, exists x : R, rho l = RtoC x) -> forall p, exists x : R, weval rho p = RtoC x.
Proof.
  intros H. induction p as [z|l a [x Ha] b [y Hb]|[] a [x Ha] b [y Hb]|a [x Ha]]; cbn [weval]; rewrite ?Ha, ?Hb.
  - exists (IZR z). reflexivity.
  - destruct (H l) as (r & ->). exists (x + r * y). rewrite RtoC_plus, RtoC_mult. reflexivity.
  - exists (x + y). rewrite RtoC_plus. reflexivity.
  - exists (x * y). rewrite RtoC_mult. reflexivity.
  - exists (/ x). rewrite RtoC_invR. reflexivity.
Qed.
Lemma diff_zero a b : Cminus a b = RtoC 0 -> a = b.
Proof. intros H. transitivity (Cplus (Cminus a b) b); [ring|]. rewrite H. ring. Qed.
Definition RO : ops R := mkOps R IZR Rplus Rmult Ropp.
Lemma numerator2_hom {K} (O : ops K) (w : K -> C) all sg gs m2 A B G gs' m2' A' B' G' :
  (forall z, w (o_Z O z) = RtoC (IZR z)) -> (forall x y, w (o_add O x y) = Cplus (w x) (w y)) -> (forall x y, w (o_mul O x y) = Cmult (w x) (w y)) ->
  w gs = RtoC gs' -> w m2 = RtoC m2' -> w A = RtoC A' -> w B = RtoC B' -> w G = RtoC G' ->
  w (numerator2 O all sg gs m2 A B G) = RtoC (numerator2 RO all sg gs' m2' A' B' G').
Proof.
  intros HZ HA HM E1 E2 E3 E4 E5. unfold numerator2. cbv zeta. cbn [o_Z o_add o_mul RO]. destruct all;
    repeat (rewrite HA || rewrite HM || rewrite HZ); rewrite E1, ?E2, E3, E4, ?E5; repeat (rewrite RtoC_plus || rewrite RtoC_mult); reflexivity.
Qed.

Section Fresh.
  Variables (st : bool) (eps : R).
  Notation num := (RN st eps).
  Hypothesis Heps : 0 <= eps.
  Variables (g : gluons) (e : bentry).
  Hypothesis He : In (g, e) qcd_entries.
  Notation c := (b_cls e).
  Notation t := (ts e).
  Variable junk : id -> nat -> T num.
  Variable params : list R.
  Variable o : obj num.
  Hypothesis EC : construct (num:=num) junk c params = (Ok tt, o).
  Notation v := (given params).
  Notation P := (b_model e v).
  Hypothesis Hheavy : forall k, (k < 4)%nat -> heavy (t k) = true -> 0 < pmass P (t k).
  Hypothesis HW : weakly c = true -> 0 < sm_sw P < 1 /\ 0 < sm_mW P.
  Hypothesis Hzero : forall x, In x (b_zero e) -> par c v x = 0.
  Hypothesis Hwidth : par c v n_widthW = 0 /\ par c v n_widthZ = 0 /\ par c v n_widthh = 0.
  Variable F : frame.
  Hypothesis Hin : 0 < f_in F.
  Hypothesis Hout : 0 < f_out F.
  Hypothesis Hcc : 0 < f_c F.
  Hypothesis Hss : 0 < f_s F.
  Hypothesis Hu : f_c F * f_c F + f_s F * f_s F = 1.
  Hypothesis HE : cm_energy P t F 0 + cm_energy P t F 1 = cm_energy P t F 2 + cm_energy P t F 3.
  Hypothesis HPoles : forall j p, In (j, p) (poles t) -> tree_den P p (invariant P t F j) <> RtoC 0.
  Notation qk k := (cm_q P t F k).
  Notation m := (pmass P (t (g_q g))).
  Notation D k := (invariant P t F k - m * m).

  Lemma rho_real sl : (forall l, exists x : R, sl l = RtoC x) -> forall l, exists x : R, rho e v F sl l = RtoC x.
  Proof. intros H l. destruct l; cbn [rho]; try (eexists; reflexivity); apply H. Qed.
  Lemma sl_real b1 pt l : exists x : R, sl_of e params F b1 pt l = RtoC x.
  Proof.
    unfold sl_of. destruct (find _ _) as [[l' [j [m2 w]]]|] eqn:E; [|exists 0; reflexivity]. apply find_some in E as [E _].
    pose proof (proj1 (forallb_forall _ _) qcd_checked _ He) as BC. cbn [snd] in BC. pose proof (fun _ : b_narrow e = true => Hwidth) as Hwidth'.
    assert (K : exists p, w = width_tag e p).
    { unfold slots_for in E. apply in_combine_r in E. apply filter_In in E as [_ E]. unfold pole_ok in E. cbn [fst snd] in E. destruct (Nat.ltb j 3); [|discriminate E].
      apply existsb_exists in E as ((j' & p) & _ & E). cbn [fst snd] in E. destruct (Nat.eqb j' j && tag_eqb w (width_tag e p)) eqn:Ej; [|discriminate E].
      apply andb_prop in Ej as [_ Et]. exists p. exact (tag_eqb_eq _ _ Et). }
    destruct K as (p & ->). rewrite (tag_value e params Hwidth').
    assert (WZ : pwidth P p = 0) by (destruct Hwidth as (A & B & D); destruct p; try reflexivity; assumption). rewrite WZ.
    destruct (weval_real (rho e v F plain_slots) (rho_real _ (fun _ => ex_intro _ 0 eq_refl)) m2) as (x & Hx). rewrite Hx, den_zero.
    exists (/ (invariant P t F j - x * x)). rewrite RtoC_invR. unfold Rminus. rewrite RtoC_plus, RtoC_opp, RtoC_mult. reflexivity.
  Qed.
  Theorem qcd_fresh :
    let s := callm (num:=num) junk c n_set_momenta [GMom (num:=num) (qk 0); GMom (num:=num) (qk 1); GMom (num:=num) (qk 2); GMom (num:=num) (qk 3)] o in
    fst (callm (num:=num) junk c n_amp2 [] (snd s)) = Ok (Some (RtT (num:=num)
      (/ INR (average c []) * (gweight g (gden g m (qk 0) (qk 1) (qk 2) (qk 3)) *
        numerator2 RO (all_gluons g) (crossed g) (sm_gs P) (m * m) (D (g_A g)) (D (g_B g)) (invariant P t F (g_G g)))))).
  Proof.
    intros s. pose proof (fun _ : b_narrow e = true => Hwidth) as HwN. pose proof (qcd_sm g e He) as Hc. pose proof (proj1 (forallb_forall _ _) qcd_checked _ He) as BC. cbn [snd] in BC.
    pose proof (HFit e BC) as HF. pose proof (mass_nonneg e BC params Hheavy) as HM.
    pose proof (proj1 (forallb_forall _ _) qcd_named _ He) as K. cbn [fst snd] in K.
    apply andb_prop in K as [K K6]. apply andb_prop in K as [K K5]. apply andb_prop in K as [K K4]. apply andb_prop in K as [K K3]. apply andb_prop in K as [_ K2].
    apply String.eqb_eq in K2. apply Nat.ltb_lt in K3, K4, K5, K6.
    destruct (code_value st eps Heps e Hc BC junk params o EC Hheavy HW Hzero (fun _ => Hwidth) F Hin Hout Hcc Hss Hu HE HPoles [] [] eq_refl eq_refl) as (HOk & b & b1 & EB & EA & HV).
    change (snd (orun (num:=num) junk c [] o)) with o in HOk, HV. fold s in HOk, HV. change (snd (orun (num:=num) junk c [] (snd s))) with (snd s) in HV.
    assert (HR : reached (num:=num) junk c o) by exact (reached_new (num:=num) junk c _ o EC).
    assert (LH : forall k, (k < 4)%nat -> leg_mass (num:=num) o k (pmass P (t k))) by (intros k Hk; eapply leg_held_b; eassumption).
    assert (HA : argless c n_amp2).
    { destruct (checks e BC) as (_ & _ & K & _). unfold amp2_check in K. destruct (find_meth c n_amp2) as [f|] eqn:EF; [|discriminate K].
      destruct (m_params f) eqn:EQ; [|discriminate K]. exists f. split; assumption. }
    pose proof (leg_zero_b e BC params Hheavy) as LZ.
    assert (S' : forall k, on_shell (pmass P (t k)) (qk k)) by (intros k; apply q_shell; assumption).
    destruct (C45_no_exception_on_shell c Hc st eps Heps junk o HR _ _ _ _ (LH 0%nat ltac:(lia)) (LH 1%nat ltac:(lia)) (LH 2%nat ltac:(lia)) (LH 3%nat ltac:(lia))
      (fun k m' H => proj1 (LZ k m' H)) (fun k m' H => proj2 (LZ k m' H)) _ _ _ _ (S' 0%nat) (S' 1%nat) (S' 2%nat) (S' 3%nat)) as (_ & HX).
    destruct (HX [] eq_refl n_amp2 HA) as (r & Hr). clear HX.
    assert (HOk' : isOk (fst s) = true) by (rewrite HOk; reflexivity).
    destruct (C48_gluon_weights g c (qcd_gluons g e He) Hc K2 (n_amp2, []) (or_introl eq_refl) st eps junk o HR m (LH _ K6) (qk 0) (qk 1) (qk 2) (qk 3)
      HOk' [] eq_refl (Some r) Hr) as (x & N & E1 & HN & _ & Ex). cbn [fst snd] in HN, Ex.
    etransitivity; [exact Hr|]. rewrite E1. do 3 f_equal. rewrite Ex. f_equal. f_equal. clear E1 Ex Hr r.
    pose proof (proj1 (forallb_forall _ _) qcd_agree _ He) as AG. unfold squares_agree, squares in AG. rewrite EB, EA in AG.
    destruct (props_of e (setup0 e) no_dens) as [pt|] eqn:EPT; [|discriminate AG]. specialize (HV pt eq_refl). cbv zeta in HV, AG.
    set (slots := slots_for e (setup0 e) pt b1) in *. set (ss := with_slots (setup0 e) slots) in *.
    set (f := fun z => match pinner (Qj (thepat c)) c b1 (g_N g) z with POk y => match ev_code e ss (dens_of ss) (members e ss (dens_of ss) b) pt y with Some p => Some (Mu ss p p) | None => None end | _ => None end) in AG.
    destruct (all_some f (configs c [])) as [l|] eqn:EL; [|discriminate AG].
    set (sl := sl_of e params F b1 pt) in *. set (W := weval (rho e v F sl)) in *.
    assert (HMu : forall p q, W (Mu ss p q) = Cmult (W p) (W q)) by (intros p q; eapply s_Mu; eassumption).
    assert (HZ : forall p, Zu ss (dens_of ss) p = true -> W p = RtoC 0) by (intros p; eapply s_Zu; eassumption).
    apply HZ in AG.
    assert (HRe : forall p, exists y : R, W p = RtoC y) by (apply weval_real, rho_real; intros l'; apply sl_real).
    assert (SUM : forall L l', all_some f L = Some l' -> (forall z, In z L -> In z (configs c [])) -> W (fold_right wadd (WL 0) l') = RtoC (Rsum (fun z => Cmod (N z) ^ 2) L)).
    { clear l EL AG. induction L as [|z L IH]; cbn [all_some]; intros l' E HIn.
      - apply sinj in E. rewrite <- E. reflexivity.
      - destruct (f z) as [p2|] eqn:Ez; [|discriminate E]. destruct (all_some f L) as [l2|]; [|discriminate E]. apply sinj in E. rewrite <- E. cbn [fold_right Rsum].
        etransitivity; [apply wadd_ok|]. rewrite RtoC_plus. f_equal; [|apply IH; [reflexivity|intros z' Hz'; apply HIn; right; exact Hz']].
        unfold f in Ez. destruct (pinner (Qj (thepat c)) c b1 (g_N g) z) as [|?|y] eqn:EY; try discriminate Ez.
        destruct (ev_code e ss (dens_of ss) (members e ss (dens_of ss) b) pt y) as [p|] eqn:EP; [|discriminate Ez]. apply sinj in Ez. rewrite <- Ez.
        assert (EN : N z = W p).
        { pose proof (HN z (HIn z (or_introl eq_refl))) as Y1. change (snd (orun (num:=num) junk c [] (snd s))) with (snd s) in Y1.
          pose proof (HV _ _ _ _ EY EP) as Y2. assert (Y3 : Ok (Some (RtC (num:=num) (N z))) = Ok (Some (RtC (num:=num) (W p)))) by (etransitivity; [symmetry; exact Y1|exact Y2]).
          congruence. }
        etransitivity; [exact (HMu p p)|]. rewrite EN. destruct (HRe p) as (y' & ->). rewrite <- RtoC_mult, Cmod_R. f_equal. cbn [pow]. rewrite Rmult_1_r, <- Rabs_mult. symmetry. apply Rabs_pos_eq. nra. }
    pose proof (SUM _ _ EL (fun z Hz => Hz)) as S1. clear SUM.
    assert (HI : forall k, (k < 3)%nat -> W (invP ss k) = RtoC (invariant P t F k)) by (intros k Hk; eapply inv_ok; eassumption).
    assert (HM2 : W (massP (legP ss (g_q g))) = RtoC m) by (eapply mass_leg; eassumption).
    assert (HD : forall k, (k < 3)%nat -> W (wsub (invP ss k) (Mu ss (massP (legP ss (g_q g))) (massP (legP ss (g_q g))))) = RtoC (D k)).
    { intros k Hk. etransitivity; [apply wsub_ok|]. etransitivity; [apply (f_equal2 Cminus); [exact (HI k Hk)|etransitivity; [apply HMu|]; apply (f_equal2 Cmult); exact HM2]|].
      unfold Rminus. rewrite RtoC_plus, RtoC_opp, RtoC_mult. reflexivity. }
    assert (S2 : W (numerator2 (PO ss) (all_gluons g) (crossed g) (wvar vGS) (Mu ss (massP (legP ss (g_q g))) (massP (legP ss (g_q g))))
        (wsub (invP ss (g_A g)) (Mu ss (massP (legP ss (g_q g))) (massP (legP ss (g_q g))))) (wsub (invP ss (g_B g)) (Mu ss (massP (legP ss (g_q g))) (massP (legP ss (g_q g))))) (invP ss (g_G g))) =
      RtoC (numerator2 RO (all_gluons g) (crossed g) (sm_gs P) (m * m) (D (g_A g)) (D (g_B g)) (invariant P t F (g_G g)))).
    { apply numerator2_hom.
      - reflexivity.
      - intros; apply wadd_ok.
      - exact HMu.
      - etransitivity; [apply wvar_ok|reflexivity].
      - etransitivity; [apply HMu|]. rewrite RtoC_mult. apply (f_equal2 Cmult); exact HM2.
      - exact (HD _ K4).
      - exact (HD _ K5).
      - exact (HI _ K3). }
    apply RtoC_inj. rewrite <- S1, <- S2.
    match type of AG with W (wsub ?a ?b) = _ => pose proof (eq_trans (eq_sym (wsub_ok (rho e v F sl) a b)) AG) as X end.
    exact (diff_zero _ _ X).
  Qed.
End Fresh.
