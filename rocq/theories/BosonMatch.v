(** * Outer bosons: from the comparison of polynomials to amp2

    Used in proofs only. *)
From Coq Require Import Reals QArith Qreals List Bool String Lra Lia FunctionalExtensionality.
From Coquelicot Require Import Complex.
From Verif Require Import Base Scalar RealNum Linear Integers Particle Sproduct Propagator Process
  ParticleProofs SpecSpinor ParticleReal SpinorReal Ready ParticleClaims SpecSproduct SpecChain ChainReal Lorentz
  WorldProofs Lang LangFrame Pure PureProofs ReadOnly Sym SymEq SMNames SMRun SMTwins SMMasses SMAll SMChecks SMState PropsClasses PropsConstruct
  SMAmp2 SpinColour SMInv SMRebuild PropsRebuild PropsAmp2 PropsGluons Poly Covariant CovReal PropsLorentz PropsQED PropsWidth
  Feynman FeynmanAlg FeynmanSum FeynmanLegs FeynmanFlat FeynmanTable FeynmanMatch FeynmanMirror PropsFeynman
  BosonSpec BosonHom Tower BosonCode BosonCodeOk BosonKin BosonFrame BosonSetup.
Import ListNotations.
Close Scope Q_scope.
Close Scope R_scope.
Open Scope nat_scope.

(** ** What is checked of a class besides [amps_agree] *)
Definition heavy (t : ptype) : bool := match t with PA | PG => false | Pf f | Pa f => negb (is_neutrino f) | _ => true end.
Definition colour_z (t : nat -> ptype) : Z :=
  if with_gluon t then 4%Z else if existsb (fun k => match t k with Pf f | Pa f => is_quark f | _ => false end) (seq 0 4) then 3%Z else 1%Z.
Definition colour_check (e : bentry) : bool :=
  match structures (b_cls e) with
  | [(m, t)] => Pos.eqb m n_amp && match SpinColour.gram t t (colourings (b_cls e)) with Some g => Qeq_bool g (inject_Z (colour_z (ts e))) | None => false end
  | _ => false end.
Definition leg_check (e : bentry) (k : nat) : bool := match leg (b_cls e) k, heavy (ts e k) with Some true, false | Some false, true | None, true => true | _, _ => false end.
Definition legmass_check (e : bentry) (s : setup) (b : pobj snum) (k : nat) : bool :=
  match nth_error (b_P b) k with
  | Some (Some y, _) => match fst (ev_par e s no_dens y) with Some p => same (Zu s no_dens) p (massP (legP s k)) | None => false end
  | _ => false end.
Definition state_check (e : bentry) : bool :=
  let c := b_cls e in
  match shape c with
  | POk b => forallb (legmass_check e (setup0 e) b) (seq 0 4)
  | _ => false end.
Definition amp2_check (c : cls) : bool := match find_meth c n_amp2 with Some f => match m_params f with [] => true | _ => false end | None => false end.
Definition base_check (e : bentry) : bool :=
  setup_fits e && Nat.eqb (length (b_legs e)) 4 && amp2_check (b_cls e) && forallb (leg_check e) (seq 0 4) && state_check e.
Definition sum_check (e : bentry) : bool :=
  negb (special (b_cls e)) && Nat.eqb (average (b_cls e) []) (initial_states (ts e)) && colour_check e &&
  shuffled (map (spins_of e) (configs (b_cls e) [])) (cart (map (fun k => helicities (ts e k)) (seq 0 4))).
Definition boson_check (e : bentry) : bool := base_check e && sum_check e.

(** ** Little things *)
Lemma agree_nth f : forall l n, agree_all f n l = true -> forall k z, nth_error l k = Some z -> f (n + k) z = true.
Proof.
  induction l as [|x l IH]; cbn [agree_all]; intros n H k z Hk; [destruct k; discriminate Hk|]. destruct (f n x) eqn:E; [|discriminate H].
  destruct k as [|k]; cbn [nth_error] in Hk; [injection Hk as <-; rewrite Nat.add_0_r; exact E|]. rewrite <- Nat.add_succ_comm. exact (IH (S n) H k z Hk).
Qed.
Lemma weval_inv r p : weval r (WR p) = Cinv (weval r p).
Proof. reflexivity. Qed.
Lemma opp_sum a b : Cplus a b = RtoC 0 -> a = Copp b.
Proof. intros H. transitivity (Cminus (Cplus a b) b); [ring|rewrite H; ring]. Qed.
Lemma eq_diff a b : Cminus a b = RtoC 0 -> a = b.
Proof. intros H. transitivity (Cplus (Cminus a b) b); [ring|rewrite H; ring]. Qed.
Lemma pinj {A B} (a a' : A) (b b' : B) : (a, b) = (a', b') -> a = a' /\ b = b'.
Proof. intros [= -> ->]. auto. Qed.
Lemma lookup_in {A} (l : list (id * A)) x a : lookup l x = Some a -> In (x, a) l.
Proof.
  induction l as [|[y b] l IH]; cbn [lookup]; [discriminate|]. destruct (Pos.eqb x y) eqn:E; intros H; [|right; exact (IH H)].
  apply Pos.eqb_eq in E. left. congruence.
Qed.
Lemma all_some_rev {A B} (f : A -> option B) l : forall l' y, all_some f l = Some l' -> In y l' -> exists x, f x = Some y /\ In x l.
Proof.
  induction l as [|a l IH]; cbn [all_some]; intros l' y E H; [injection E as <-; contradiction|].
  destruct (f a) as [z|] eqn:Ea; [|discriminate]. destruct (all_some f l) as [k|]; [|discriminate]. injection E as <-.
  destruct H as [<-|H]; [exists a; split; [exact Ea|left; reflexivity]|]. destruct (IH k y eq_refl H) as (x & X1 & X2). exists x. split; [exact X1|right; exact X2].
Qed.
Lemma lcmp_refl l : lcmp l l = Eq.
Proof. destruct l; reflexivity. Qed.
Lemma lcmp_eq l l' : lcmp l l' = Eq -> l = l'.
Proof. destruct l, l'; intros H; try reflexivity; discriminate H. Qed.
Definition named_slot {A} (l : lv) (x : lv * A) : bool := match lcmp (fst x) l with Eq => true | _ => false end.
Lemma find_named {A} : forall names (L : list A) l x, NoDup names -> In (l, x) (combine names L) -> find (named_slot l) (combine names L) = Some (l, x).
Proof.
  induction names as [|n names IH]; intros [|y L] l x N H; cbn [combine] in *; try contradiction. inversion N as [|? ? N1 N2]; subst.
  cbn [find]. unfold named_slot at 1. cbn [fst]. destruct H as [[= -> ->]|H]; [rewrite lcmp_refl; reflexivity|].
  destruct (lcmp n l) eqn:E; try (exact (IH L l x N2 H)). apply lcmp_eq in E. subst n. exfalso. apply N1. apply in_combine_l in H. exact H.
Qed.
Lemma slot_names_nodup : NoDup slot_names.
Proof. unfold slot_names. repeat constructor; cbn; intuition discriminate. Qed.
Lemma ws0 e : with_slots (setup0 e) [] = setup0 e.
Proof. reflexivity. Qed.
Lemma colour_total t z : forall cs g, SpinColour.gram t t cs = Some g -> (Rsum (fun col => Cmod (tensor_at t col * z)%C ^ 2) cs = Q2R g * Cmod z ^ 2)%R.
Proof.
  intros cs g H. transitivity (Q2R g * Re (z * Cconj z)%C)%R.
  - rewrite <- (gram_ok t t z z cs g H). apply Rsum_ext. intros col _. rewrite Cmod2. destruct (tensor_at t col), z. cbn. ring.
  - rewrite Cmod2. destruct z. cbn. ring.
Qed.

(** ** Objects just constructed, in the centre of mass frame *)
Open Scope R_scope.
Section Fresh.
  Variables (st : bool) (eps : R).
  Notation num := (RN st eps).
  Hypothesis Heps : 0 <= eps.
  Variable e : bentry.
  Notation c := (b_cls e).
  Notation t := (ts e).
  Hypothesis Hc : In c sm_classes.
  Hypothesis HBC : base_check e = true.
  Variable junk : id -> nat -> T num.
  Variable params : list R.
  Variable o : obj num.
  Hypothesis EC : construct (num:=num) junk c params = (Ok tt, o).
  Notation v := (given params).
  Notation P := (b_model e v).
  Hypothesis Hheavy : forall k, (k < 4)%nat -> heavy (t k) = true -> 0 < pmass P (t k).
  Hypothesis HW : weakly c = true -> 0 < sm_sw P < 1 /\ 0 < sm_mW P.
  Hypothesis Hzero : forall x, In x (b_zero e) -> par c v x = 0.
  Hypothesis Hwidth : b_narrow e = true -> par c v n_widthW = 0 /\ par c v n_widthZ = 0 /\ par c v n_widthh = 0.
  Variable F : frame.
  Hypothesis Hin : 0 < f_in F.
  Hypothesis Hout : 0 < f_out F.
  Hypothesis Hcc : 0 < f_c F.
  Hypothesis Hss : 0 < f_s F.
  Hypothesis Hu : f_c F * f_c F + f_s F * f_s F = 1.
  Hypothesis HE : cm_energy P t F 0 + cm_energy P t F 1 = cm_energy P t F 2 + cm_energy P t F 3.
  Hypothesis HPoles : forall j p, In (j, p) (poles t) -> tree_den P p (invariant P t F j) <> RtoC 0.

  Lemma checks : setup_fits e = true /\ length (b_legs e) = 4%nat /\ amp2_check c = true /\
    forallb (leg_check e) (seq 0 4) = true /\ state_check e = true.
  Proof.
    pose proof HBC as K. unfold base_check in K.
    apply andb_prop in K as [K K5]. apply andb_prop in K as [K K4]. apply andb_prop in K as [K K3]. apply andb_prop in K as [K1 K2].
    apply Nat.eqb_eq in K2. repeat split; assumption.
  Qed.
  Lemma light_mass k : heavy (t k) = false -> pmass P (t k) = 0.
  Proof. destruct (t k) as [| | | | | |f|f]; cbn [heavy]; intros H; try discriminate H; try reflexivity; destruct f; try discriminate H; reflexivity. Qed.
  Lemma past k : (4 <= k)%nat -> t k = PA.
  Proof. intros H. unfold ts. apply nth_overflow. destruct checks as (_ & L & _). rewrite L. exact H. Qed.
  Lemma mass_nonneg k : 0 <= pmass P (t k).
  Proof.
    destruct (le_lt_dec 4 k) as [H|H]; [rewrite (past k H); cbn; lra|].
    destruct (heavy (t k)) eqn:E; [left; exact (Hheavy k H E)|rewrite (light_mass k E); lra].
  Qed.
  Lemma HFit : setup_fits e = true.
  Proof. exact (proj1 checks). Qed.

  Notation rh sl := (rho e v F sl).
  Notation dP := (fun y => denT (num:=num) (rT0 (num:=num) junk params) (rC0 (num:=num)) y : R).
  (** expressions in the parameters *)
  Lemma par_good sl slots d :
    (forall l l' j m, find (fun x => match lcmp (fst x) l with Eq => true | _ => false end) slots = Some (l', (j, (m, None))) ->
       (j < 3)%nat /\ Cmult (rh sl l) (Cminus (RtoC (invariant P t F j)) (Cmult (weval (rh sl) m) (weval (rh sl) m))) = RtoC 1) ->
    d = dens_of (with_slots (setup0 e) slots) \/ d = no_dens ->
    forall y, good (rh sl) (dP y) (ev_par e (with_slots (setup0 e) slots) d y).
  Proof.
    intros HSL Hd y. unfold ev_par. pose proof HFit as HF; pose proof mass_nonneg as HM.
    assert (HMu : forall p q, weval (rh sl) (Mu (with_slots (setup0 e) slots) p q) = Cmult (weval (rh sl) p) (weval (rh sl) q)) by (intros; eapply Mu_ok; eassumption).
    assert (HZ : forall p, Zu (with_slots (setup0 e) slots) d p = true -> weval (rh sl) p = RtoC 0) by (intros p; eapply Zu_ok; eassumption).
    assert (HI : forall x, In x (invs_of (with_slots (setup0 e) slots)) -> Cmult (weval (rh sl) (fst x)) (weval (rh sl) (snd x)) = RtoC 1) by (intros x; eapply invs_ok; eassumption).
    apply (evT_ok st eps (rh sl) _ HMu _ HZ _ HI).
    - intros r. eapply roots_ok; eassumption.
    - intros [ | | | | |k| ]; try apply none_ok. apply (plain_ok (rh sl) _ HZ _ HI). intros p Hp. change (weval (rh sl) p = RtoC (v k)). eapply param_ok; eassumption.
  Qed.
  Lemma par_good0 sl y : good (rh sl) (dP y) (ev_par e (setup0 e) no_dens y).
  Proof. rewrite <- (ws0 e). apply par_good; [intros ? ? ? ? H; discriminate H|right; reflexivity]. Qed.
  Lemma Zu0 sl p : Zu (setup0 e) no_dens p = true -> weval (rh sl) p = RtoC 0.
  Proof.
    pose proof HFit as HF; pose proof mass_nonneg as HM. rewrite <- (ws0 e). eapply Zu_ok; try eassumption; [intros ? ? ? ? H; discriminate H|right; reflexivity].
  Qed.
  Lemma Mu0 sl p q : weval (rh sl) (Mu (setup0 e) p q) = Cmult (weval (rh sl) p) (weval (rh sl) q).
  Proof. pose proof HFit as HF; pose proof mass_nonneg as HM. rewrite <- (ws0 e). eapply Mu_ok; eassumption. Qed.
  Lemma mass_of_ok sl p : weval (rh sl) (mass_of (setup0 e) p) = RtoC (pmass P p).
  Proof.
    pose proof HFit as HF; pose proof mass_nonneg as HM.
    assert (K : consts_hom (weval (rh sl)) (u_E (setup0 e)) (constsC P)) by (rewrite <- (ws0 e); eapply E_ok; eassumption).
    destruct p; cbn [mass_of pmass]; try reflexivity.
    - unfold mass_of. cbv zeta. rewrite Mu0, (ch_mW _ _ _ K), (ch_icw _ _ _ K). cbn [constsC c_mW c_icw]. rewrite <- RtoC_mult. reflexivity.
    - exact (ch_mW _ _ _ K).
    - exact (ch_mW _ _ _ K).
    - exact (ch_mh _ _ _ K).
    - exact (ch_fm _ _ _ K f).
    - exact (ch_fm _ _ _ K f).
  Qed.
  Lemma leg_term b k : shape c = POk b -> (k < 4)%nat -> exists y u, nth_error (b_P b) k = Some (Some y, u) /\ dP y = pmass P (t k).
  Proof.
    intros EB Hk. pose proof HFit as HF; pose proof mass_nonneg as HM. destruct checks as (_ & _ & _ & _ & K). unfold state_check in K. cbv zeta in K. rewrite EB in K.
    pose proof (proj1 (forallb_forall _ _) K k ltac:(apply in_seq; lia)) as L. unfold legmass_check in L.
    destruct (nth_error (b_P b) k) as [[[y|] u]|]; try discriminate L. exists y, u. split; [reflexivity|].
    destruct (fst (ev_par e (setup0 e) no_dens y)) as [p|] eqn:E; [|discriminate L]. set (sl := fun _ : lv => RtoC 0).
    pose proof (proj1 (par_good0 sl y) p E) as A. apply (same_ok (rh sl) _ (Zu0 sl)) in L. rewrite L in A.
    assert (B : weval (rh sl) (massP (legP (setup0 e) k)) = RtoC (pmass P (t k))) by (rewrite <- (ws0 e); eapply mass_leg; eassumption).
    rewrite B in A. apply RtoC_inj in A. symmetry. exact A.
  Qed.
  Lemma leg_held_b k : (k < 4)%nat -> leg_mass (num:=num) o k (pmass P (t k)).
  Proof.
    intros Hk. destruct (shape_c c Hc) as (b & EB & _). destruct (construct_shape junk c params o b EC EB) as (D & HO).
    destruct (leg_term b k EB Hk) as (y & u & E1 & E3).
    destruct (or_M _ _ _ _ _ _ _ HO k y u E1) as (Q & m & Q1 & Q2 & Q3). unfold RTs in Q3.
    rewrite <- E3, <- Q3. exact (mass_held st eps o k Q m Q1 Q2).
  Qed.
  Lemma leg_zero_b k m : In (k, m) [(0%nat, pmass P (t 0)); (1%nat, pmass P (t 1)); (2%nat, pmass P (t 2)); (3%nat, pmass P (t 3))] ->
    (leg c k = Some true -> m = 0) /\ (leg c k = Some false -> m <> 0).
  Proof.
    assert (K : forall k, (k < 4)%nat -> (leg c k = Some true -> pmass P (t k) = 0) /\ (leg c k = Some false -> pmass P (t k) <> 0)).
    { clear k m. intros k Hk. destruct checks as (_ & _ & _ & K & _). pose proof (proj1 (forallb_forall _ _) K k ltac:(apply in_seq; lia)) as L. unfold leg_check in L.
      split; intros H; rewrite H in L; destruct (heavy (t k)) eqn:E; try discriminate L; [exact (light_mass k E)|]. apply Rgt_not_eq. exact (Hheavy k Hk E). }
    intros H. cbn in H. repeat destruct H as [[= <- <-]|H]; try contradiction; apply K; lia.
  Qed.
  Lemma pattern k : (k < 4)%nat -> Reqb (pmass P (t k)) 0 = match leg c k with Some true => true | _ => false end.
  Proof.
    intros Hk. destruct checks as (_ & _ & _ & K & _). pose proof (proj1 (forallb_forall _ _) K k ltac:(apply in_seq; lia)) as L. unfold leg_check in L.
    destruct (heavy (t k)) eqn:E.
    - replace (match leg c k with Some true => true | _ => false end) with false by (destruct (leg c k) as [[]|]; [discriminate L|reflexivity|reflexivity]).
      apply (Reqb_false _ _). apply Rgt_not_eq. exact (Hheavy k Hk E).
    - rewrite (light_mass k E). destruct (leg c k) as [[]|]; try discriminate L. apply Reqb_refl.
  Qed.

  (** ** The propagators *)
  Definition width_value (w : option id) : R := match w with Some x => par c v x | None => 0 end.
  Lemma free_value x w : free_width e x = w -> (x = n_widthW \/ x = n_widthZ \/ x = n_widthh) -> width_value w = par c v x.
  Proof.
    intros <- Hx. unfold free_width. destruct (b_narrow e) eqn:EN.
    - destruct (Hwidth eq_refl) as (A & B & D). cbn [width_value]. destruct Hx as [->|[->| ->]]; symmetry; assumption.
    - destruct (has c x) eqn:EH; [reflexivity|]. cbn [width_value]. symmetry. unfold has in EH. unfold par. destruct (index x (c_params c)); [discriminate EH|reflexivity].
  Qed.
  Lemma tag_value p : width_value (width_tag e p) = pwidth P p.
  Proof. destruct p; try reflexivity; apply free_value; auto. Qed.
  Lemma tag_eqb_eq a b : tag_eqb a b = true -> a = b.
  Proof. destruct a, b; cbn [tag_eqb]; intros H; try discriminate H; [apply Pos.eqb_eq in H; subst; reflexivity|reflexivity]. Qed.
  (** k^2 - m^2 - i m w *)
  Definition slot_den_at (j : nat) (m : C) (w : R) : C := Cminus (Cminus (RtoC (invariant P t F j)) (Cmult m m)) (Cmult Ci (Cmult m (RtoC w))).
  Lemma den_pair j m w : slot_den_at j (RtoC m) w = (invariant P t F j - m * m, - (m * w)).
  Proof. unfold slot_den_at. apply C_ext; cbn [fst snd Cminus Cplus Copp RtoC Cmult Ci]; ring. Qed.
  Lemma den_zero j m : slot_den_at j m 0 = Cminus (RtoC (invariant P t F j)) (Cmult m m).
  Proof. unfold slot_den_at. ring. Qed.
  Section Props.
    Variables (b b1 : pobj snum) (pt : list (id * (tow * option id))).
    Hypothesis EB : shape c = POk b.
    Hypothesis EPT : props_of e (setup0 e) no_dens = Some pt.
    Lemma pt_value r m w : lookup pt r = Some (m, w) -> exists y, b_R b r = Some y /\ k_R (dyn_mask c) r = false /\ dP (pr_w y) = width_value w /\
      forall sl, weval (rh sl) m = RtoC (dP (pr_m y)).
    Proof.
      intros H. apply lookup_in in H. unfold props_of in EPT. destruct (rprops_of c) as [l|] eqn:EL; [|discriminate EPT].
      destruct (all_some_rev _ _ _ _ EPT H) as ([r' [pm pw]] & X1 & X2). cbn [fst snd] in X1.
      destruct (fst (ev_par e (setup0 e) no_dens pm)) as [m'|] eqn:E1; [|discriminate X1]. destruct (width_of e (setup0 e) no_dens pw) as [w'|] eqn:E2; [|discriminate X1].
      apply sinj in X1. apply pinj in X1 as [Y1 Y2]. apply pinj in Y2 as [Y2 Y3]. subst r' w'.
      unfold rprops_of in EL. rewrite EB in EL. destruct (all_some_rev _ _ _ _ EL X2) as (r' & Z1 & Z2).
      destruct (b_R b r') as [y|] eqn:EY; [|discriminate Z1]. destruct (negb (k_R (dyn_mask c) r') && pure (pr_m y) && pure (pr_w y)) eqn:EP; [|discriminate Z1].
      injection Z1 as -> <- <-. exists y. apply andb_prop in EP as [EP _]. apply andb_prop in EP as [EP _]. apply negb_true_iff in EP.
      split; [exact EY|]. split; [exact EP|]. split.
      - assert (N : forall u, match fst (ev_par e (setup0 e) no_dens u) with Some w0 => if Zu (setup0 e) no_dens w0 then Some None else None | None => None end = Some w -> dP u = width_value w).
        { intros u E3. destruct (fst (ev_par e (setup0 e) no_dens u)) as [w0|] eqn:E4; [|discriminate E3]. destruct (Zu (setup0 e) no_dens w0) eqn:E5; [|discriminate E3].
          injection E3 as <-. set (sl := fun _ : lv => RtoC 0). pose proof (proj1 (par_good0 sl _) _ E4) as A. rewrite (Zu0 sl _ E5) in A. apply RtoC_inj in A. symmetry. exact A. }
        unfold width_of in E2. destruct (pr_w y) as [z|d0|a0 x0 y0|x0|x0|x0|a0|x0|x0|]; try (match goal with |- denT _ _ ?u = _ => exact (N u E2) end). destruct a0 as [ | | | | |k| ]; try (match goal with |- denT _ _ ?u = _ => exact (N u E2) end).
        destruct (nth_error (c_params c) k) as [x|] eqn:EK; [|match goal with |- denT _ _ ?u = _ => exact (N u E2) end]. destruct (free_width e x) as [x'|] eqn:EF; [|match goal with |- denT _ _ ?u = _ => exact (N u E2) end]. injection E2 as <-.
        unfold free_width in EF. destruct (b_narrow e); [discriminate EF|]. destruct (has c x); [|discriminate EF]. injection EF as <-.
        cbn [width_value]. unfold par. rewrite (fit_index e HFit k x EK). reflexivity.
      - intros sl. rewrite <- Y2. exact (proj1 (par_good0 sl _) _ E1).
    Qed.
    Notation slots := (slots_for e (setup0 e) pt b1).
    Definition plain_slots : lv -> C := fun _ => RtoC 0.
    Definition sl_of (l : lv) : C := match find (named_slot l) slots with Some (_, (j, (m, w))) => Cinv (slot_den_at j (weval (rh plain_slots) m) (width_value w)) | None => RtoC 0 end.
    Lemma dedup2_in s x l : In x (dedup2 s l) -> In x l.
    Proof. induction l as [|y l IH]; cbn [dedup2]; [auto|]. cbv zeta. destruct (existsb _ _); intros H; [right; auto|]. destruct H as [<-|H]; [left; reflexivity|right; auto]. Qed.
    Lemma slot_facts l j m w : In (l, (j, (m, w))) slots -> (j < 3)%nat /\ In l slot_names /\ exists p, In (j, p) (poles t) /\ w = width_tag e p /\ forall sl, weval (rh sl) m = RtoC (pmass P p).
    Proof.
      unfold slots_for. intros H. pose proof (in_combine_l _ _ _ _ H) as HN. apply in_combine_r in H. apply filter_In in H as [_ H2].
      unfold pole_ok in H2. cbn [fst snd] in H2. destruct (Nat.ltb j 3) eqn:Hj; [|discriminate H2]. apply Nat.ltb_lt in Hj. split; [exact Hj|]. split; [exact HN|].
      apply existsb_exists in H2 as ((j' & p) & Hp & H2). cbn [fst snd] in H2. destruct (Nat.eqb j' j && tag_eqb w (width_tag e p)) eqn:Ej; [|discriminate H2].
      apply andb_prop in Ej as [Ej Et]. apply Nat.eqb_eq in Ej. subst j'. apply tag_eqb_eq in Et.
      exists p. split; [exact Hp|]. split; [exact Et|]. intros sl. rewrite (same_ok (rh sl) _ (Zu0 sl) _ _ H2). apply mass_of_ok.
    Qed.
    Lemma slot_works l j m w : In (l, (j, (m, w))) slots -> (j < 3)%nat /\ exists p, In (j, p) (poles t) /\ w = width_tag e p /\
      (forall sl, weval (rh sl) m = RtoC (pmass P p)) /\ rh sl_of l = Cinv (tree_den P p (invariant P t F j)).
    Proof.
      intros H. destruct (slot_facts l j m w H) as (Hj & HN & p & Hp & HT & HV). split; [exact Hj|]. exists p. split; [exact Hp|]. split; [exact HT|]. split; [exact HV|].
      assert (EQ : rh sl_of l = sl_of l) by (unfold slot_names in HN; cbn [In] in HN; repeat destruct HN as [<-|HN]; try contradiction; reflexivity).
      rewrite EQ. unfold sl_of at 1. replace (find (named_slot l) slots) with (Some (l, (j, (m, w)))) by (symmetry; exact (find_named _ _ _ _ slot_names_nodup H)).
      rewrite HV, den_pair, HT, tag_value. reflexivity.
    Qed.
    Lemma slot_found l l' j m : find (fun x => match lcmp (fst x) l with Eq => true | _ => false end) slots = Some (l', (j, (m, None))) ->
       (j < 3)%nat /\ Cmult (rh sl_of l) (Cminus (RtoC (invariant P t F j)) (Cmult (weval (rh sl_of) m) (weval (rh sl_of) m))) = RtoC 1.
    Proof.
      intros H. apply find_some in H as [H1 H2]. cbn [fst] in H2. destruct (lcmp l' l) eqn:E; try discriminate H2. apply lcmp_eq in E. subst l'.
      destruct (slot_works _ _ _ _ H1) as (Hj & p & Hp & HT & HV & HL). split; [exact Hj|]. rewrite HL, HV.
      assert (WZ : pwidth P p = 0) by (rewrite <- tag_value, <- HT; reflexivity).
      replace (Cminus (RtoC (invariant P t F j)) (Cmult (RtoC (pmass P p)) (RtoC (pmass P p)))) with (tree_den P p (invariant P t F j)); [apply Cinv_l; exact (HPoles j p Hp)|].
      unfold tree_den. rewrite WZ. apply C_ext; cbn [fst snd Cminus Cplus Copp RtoC Cmult]; ring.
    Qed.
    Notation s := (with_slots (setup0 e) slots).
    Notation d := (dens_of s).
    Notation W := (weval (rh sl_of)).
    Lemma s_Mu p q : W (Mu s p q) = Cmult (W p) (W q).
    Proof. pose proof HFit as HF; pose proof mass_nonneg as HM. eapply Mu_ok; eassumption. Qed.
    Lemma s_Zu p : Zu s d p = true -> W p = RtoC 0.
    Proof. pose proof HFit as HF; pose proof mass_nonneg as HM. pose proof slot_found as HSL. eapply Zu_ok; try eassumption. left. reflexivity. Qed.
    Lemma find_slot_ok j m w p : find_slot s d j (m, w) = Some p -> (j < 3)%nat /\ W p = Cinv (slot_den_at j (W m) (width_value w)).
    Proof.
      unfold find_slot. change (u_slots s) with slots. destruct (find _ slots) as [[l [j' [m' w']]]|] eqn:E; [|discriminate]. cbn [fst snd]. intros H. apply sinj in H. rewrite <- H. clear H.
      apply find_some in E as [E1 E2]. cbn [fst snd] in E2. destruct (Nat.eqb j j' && tag_eqb w w') eqn:E3; [|discriminate E2]. apply andb_prop in E3 as [E3 E4]. apply Nat.eqb_eq in E3. subst j'.
      apply tag_eqb_eq in E4. subst w'.
      destruct (slot_works _ _ _ _ E1) as (Hj & q & Hq & HT & HV & HL). split; [exact Hj|]. rewrite (same_ok _ _ s_Zu _ _ E2), wvar_ok, HL, HV, den_pair, HT, tag_value. reflexivity.
    Qed.
    Lemma s_mass p : W (mass_of s p) = RtoC (pmass P p).
    Proof.
      pose proof HFit as HF; pose proof mass_nonneg as HM.
      assert (K : consts_hom W (u_E s) (constsC P)) by (eapply E_ok; eassumption).
      destruct p; cbn [mass_of pmass]; try reflexivity.
      - unfold mass_of. cbv zeta. rewrite s_Mu, (ch_mW _ _ _ K), (ch_icw _ _ _ K). cbn [constsC c_mW c_icw]. rewrite <- RtoC_mult. reflexivity.
      - exact (ch_mW _ _ _ K).
      - exact (ch_mW _ _ _ K).
      - exact (ch_mh _ _ _ K).
      - exact (ch_fm _ _ _ K f).
      - exact (ch_fm _ _ _ K f).
    Qed.
    Lemma propP_ok j p : (j < 3)%nat -> width_tag e p = None \/ find_slot s d j (mass_of s p, width_tag e p) <> None -> W (propP e s d j p) = Cinv (tree_den P p (invariant P t F j)).
    Proof.
      intros Hj H. unfold propP. cbv zeta. destruct (find_slot s d j (mass_of s p, width_tag e p)) as [x|] eqn:E.
      - rewrite (proj2 (find_slot_ok _ _ _ _ E)), s_mass, den_pair, tag_value. reflexivity.
      - destruct H as [H|H]; [|contradiction].
        assert (K : W (invP s j) = RtoC (invariant P t F j)) by (pose proof HFit as HF; pose proof mass_nonneg as HM; eapply inv_ok; eassumption).
        rewrite weval_inv, wsub_ok, K, s_Mu, s_mass. apply f_equal. unfold tree_den. rewrite <- tag_value, H. cbn [width_value].
        apply C_ext; cbn [fst snd Cminus Cplus Copp RtoC Cmult]; ring.
    Qed.
    Hypothesis HSS : spec_slots e s d = true.
    Lemma poles_lt j p : In (j, p) (poles t) -> (j < 3)%nat.
    Proof.
      unfold poles. cbv zeta. rewrite !in_app_iff, !in_map_iff. intros [H|[H|H]]; destruct H as (x & H & _); apply pinj in H as [<- _]; lia.
    Qed.
    Lemma spec_ok h : W (ev_spec e s d h) = feynman_tree P t F h.
    Proof.
      pose proof HFit as HF; pose proof mass_nonneg as HM. unfold ev_spec, feynman_tree.
      assert (G : existsb (fun x => match x with PG => true | _ => false end) (b_legs e) = with_gluon t).
      { unfold with_gluon, ts. destruct checks as (_ & L & _). destruct (b_legs e) as [|a0 [|a1 [|a2 [|a3 [|a4 l]]]]]; try discriminate L. reflexivity. }
      rewrite G, !s_Mu. f_equal.
      - destruct (with_gluon t); rewrite !wvar_ok, RtoC_mult; reflexivity.
      - assert (E' : consts_hom W (u_E s) (constsC P)) by (eapply E_ok; eassumption).
        destruct (PO_hom e HF v F HM Hin Hout Hu HE HW sl_of slots) as (HZ & HA & HMl & HN).
        rewrite (h_amplitude (PO s) CO W HZ HA HMl HN (u_E s) (constsC P) E' (propP e s d) (fun j p => W (propP e s d j p)) (fun _ _ => eq_refl) (legP s) (cm_leg P t F)) by (intros k Hk; eapply leg_ok; eassumption).
        apply amplitude_poles. intros j p Hp. apply propP_ok; [exact (poles_lt j p Hp)|].
        pose proof (proj1 (forallb_forall _ _) HSS (j, p) Hp) as X. cbn [fst snd] in X. destruct (width_tag e p); [right|left; reflexivity]. destruct (find_slot s d j _); [discriminate|discriminate X].
    Qed.
  End Props.

  Notation qk k := (cm_q P t F k).
  Lemma members_in s d b m w : lookup (members e s d b) m = Some w -> known (dyn_mask c) b m = true /\ exists y, b_T b m = Some y /\ w = ev_par e s d y.
  Proof.
    intros H. apply lookup_in in H. unfold members in H. apply in_flat_map in H as (x & _ & H). cbv zeta in H.
    destruct (known (dyn_mask c) b (fst x)) eqn:EK; [|contradiction]. destruct (b_T b (fst x)) as [y|] eqn:EY; [|contradiction]. destruct H as [H|[]].
    apply pinj in H as [<- <-]. split; [exact EK|]. exists y. split; [exact EY|reflexivity].
  Qed.
  Lemma cm_den m w k : (k < 3)%nat -> den_at (mkSM 0 0 0 0 m 0 0 w (fun _ => 0)) (fun j => pvec (qk j)) Bh k = slot_den_at k (RtoC m) w.
  Proof.
    intros Hk. rewrite den_pair. unfold den_at, propagator_den, invariant. cbn [b_mass b_width sm_mh sm_wh].
    destruct k as [|[|[|k]]]; [| | |lia]; unfold square4, transfer, ingoing, cm_q, pvec; cbn [goes_out v_0 v_1 v_2 v_3]; reflexivity.
  Qed.
  (** ** What the methods of the class return *)
  Lemma code_value h rs : forallb no_setter h = true -> forallb reading rs = true ->
    let g := callm (num:=num) junk c n_set_momenta [GMom (num:=num) (qk 0); GMom (num:=num) (qk 1); GMom (num:=num) (qk 2); GMom (num:=num) (qk 3)]
               (snd (orun (num:=num) junk c h o)) in
    let o2 := snd (orun (num:=num) junk c rs (snd g)) in
    fst g = Ok None /\
    exists b b1, shape c = POk b /\ after c (dyn_mask c) b (thepat c) = POk (None, b1) /\
    forall pt, props_of e (setup0 e) no_dens = Some pt -> let s := with_slots (setup0 e) (slots_for e (setup0 e) pt b1) in
    forall m z y p, pinner (Qj (thepat c)) c b1 m z = POk y -> ev_code e s (dens_of s) (members e s (dens_of s) b) pt y = Some p ->
      fst (callm (num:=num) junk c m (map GI z) o2) = Ok (Some (RtC (num:=num) (weval (rh (sl_of b1 pt)) p))).
  Proof.
    intros Hh Hrs g o2. pose proof HFit as HF. pose proof mass_nonneg as HM.
    assert (HR : reached (num:=num) junk c o) by exact (reached_new (num:=num) junk c _ o EC).
    pose proof (leg_held_b 0 ltac:(lia)) as L0. pose proof (leg_held_b 1 ltac:(lia)) as L1. pose proof (leg_held_b 2 ltac:(lia)) as L2. pose proof (leg_held_b 3 ltac:(lia)) as L3.
    assert (HS : forall k, on_shell (pmass P (t k)) (qk k)) by (intros k; apply q_shell; assumption).
    pose proof (fun k m' H => proj1 (leg_zero_b k m' H)) as Z1. pose proof (fun k m' H => proj2 (leg_zero_b k m' H)) as Z2.
    destruct (C45_no_exception_on_shell c Hc st eps Heps junk o HR _ _ _ _ L0 L1 L2 L3 Z1 Z2 _ _ _ _ (HS 0%nat) (HS 1%nat) (HS 2%nat) (HS 3%nat)) as (HOk0 & _).
    assert (LH : forall k, (k < 4)%nat -> leg_mass (num:=num) (snd (orun (num:=num) junk c h o)) k (pmass P (t k))) by (intros k Hk; apply legs_history; [exact Hc|exact HR|exact Hh|exact Hk|exact (leg_held_b k Hk)]).
    destruct (C45_no_exception_on_shell c Hc st eps Heps junk _ (reached_history (num:=num) junk c h o Hh HR) _ _ _ _ (LH 0%nat ltac:(lia)) (LH 1%nat ltac:(lia)) (LH 2%nat ltac:(lia)) (LH 3%nat ltac:(lia))
      Z1 Z2 _ _ _ _ (HS 0%nat) (HS 1%nat) (HS 2%nat) (HS 3%nat)) as (HOk & _).
    fold g in HOk.
    split; [exact HOk|].
    set (q4 := [qk 0; qk 1; qk 2; qk 3]).
    assert (HOk0' : isOk (fst (callm (num:=num) junk c n_set_momenta (map (GMom (num:=num)) q4) o)) = true)
      by (change (isOk (fst (callm (num:=num) junk c n_set_momenta [GMom (num:=num) (qk 0); GMom (num:=num) (qk 1); GMom (num:=num) (qk 2); GMom (num:=num) (qk 3)] o)) = true); rewrite HOk0; reflexivity).
    assert (HOk' : isOk (fst (callm (num:=num) junk c n_set_momenta (map (GMom (num:=num)) q4) (snd (orun (num:=num) junk c h o)))) = true)
      by (change (isOk (fst g) = true); rewrite HOk; reflexivity).
    destruct (pair_state (num:=num) junk c o h q4 q4 rs rs Hc (polar_real st eps) HR Hh eq_refl eq_refl HOk0' HOk' Hrs Hrs)
      as (b & pat & b1 & rT0 & rT & EB & HI & EA & _ & R1 & RE & R4 & R5 & R8 & R9 & _ & R6 & _ & HQ).
    assert (RE' : forall a, match a with AMom _ _ => False | _ => True end -> rT0 a = rT a) by exact RE.
    setoid_rewrite (RE' (AMass _) I) in R4. setoid_rewrite (RE' (AMass _) I) in R5. setoid_rewrite (RE' (APm _) I) in R8. setoid_rewrite (RE' (APw _) I) in R8. setoid_rewrite (RE' (AMem _) I) in R9.
    change (snd (orun (num:=num) junk c rs (snd (callm (num:=num) junk c n_set_momenta (map (GMom (num:=num)) q4) (snd (orun (num:=num) junk c h o)))))) with o2 in HQ.
    destruct (HQ (amp_of junk c o2)) as [HQ1 HQ2]. clear HQ.
    destruct (construct_shape junk c params o b EC EB) as (D & HO).
    assert (RM : forall k, (k < 4)%nat -> rT (AMass k) = pmass P (t k)).
    { intros k Hk. destruct (leg_held_b k Hk) as (Q & Q1 & Q2). destruct (R4 k Hk) as (Q' & E3' & E4'). rewrite Q1 in E3'. injection E3' as <-.
      unfold mass in Q2. rewrite E4' in Q2. change (Ok (rT (AMass k) : T num) = Ok (pmass P (t k) : T num)) in Q2. congruence. }
    assert (HPt : pat = thepat c).
    { rewrite (pat_shape pat HI). unfold thepat.
      assert (X : forall k, (k < 4)%nat -> pat k = match leg c k with Some true => true | _ => false end).
      { intros k Hk. rewrite (R5 k Hk), (RM k Hk). exact (pattern k Hk). }
      rewrite !X by lia. reflexivity. }
    subst pat.
    assert (A1 : forall k mu, (k < 4)%nat -> rT (AMom k mu) = comp (num:=num) (qk k) mu).
    { intros [|[|[|[|k]]]] mu Hk; [exact (R1 0%nat mu Hk)|exact (R1 1%nat mu Hk)|exact (R1 2%nat mu Hk)|exact (R1 3%nat mu Hk)|lia]. }
    assert (A2 : forall k, (k < 4)%nat -> thepat c k = Reqb (rT (AMass k)) 0) by (intros k Hk; exact (R5 k Hk)).
    assert (A3 : forall k, (k < 4)%nat -> fst (particle_new (num:=num) (fun _ => 0) (qk k) (rT (AMass k))) = Ok tt).
    { intros [|[|[|[|k]]]] Hk; [exact (R6 0%nat Hk)|exact (R6 1%nat Hk)|exact (R6 2%nat Hk)|exact (R6 3%nat Hk)|lia]. }
    assert (A4 : forall x y, known (dyn_mask c) b x = true -> b_T b x = Some y -> rT (AMem x) = dP y).
    { intros x y X1 X2. destruct (or_T _ _ _ _ _ _ _ HO x y X2) as (w & W1 & W2). pose proof (R9 x X1) as X. rewrite W1 in X. injection X as X. unfold RTs in W2.
      rewrite <- X. exact W2. }
    exists b, b1. split; [exact EB|]. split; [exact EA|]. intros pt EPT s m z y p EY EP.
    set (slots := slots_for e (setup0 e) pt b1) in s.
    set (sl := sl_of b1 pt). set (W := weval (rh sl)).
    assert (HMu : forall p q, W (Mu s p q) = Cmult (W p) (W q)) by exact (s_Mu b1 pt).
    assert (HZ : forall p, Zu s (dens_of s) p = true -> W p = RtoC 0) by exact (s_Zu b1 pt).
    assert (HInv : forall x, In x (invs_of s) -> Cmult (W (fst x)) (W (snd x)) = RtoC 1) by (intros x; eapply invs_ok; eassumption).
    assert (HRt : forall r, In r (roots_of s) -> exists y : R, 0 <= y /\ W r = RtoC y) by (intros r; eapply roots_ok; eassumption).
    destruct (amp_value junk c (thepat c) b1 o2 rT HQ1 HQ2 _ _ _ EY) as [V3 V4'].
    assert (HEV : W p = denC (num:=num) rT (amp_of junk c o2) y).
    { eapply (evC_ok st eps (rh sl) (Mu s) HMu (Zu s (dens_of s)) HZ (invs_of s) HInv (roots_of s) HRt rT (amp_of junk c o2)
        (atom_of s (dens_of s) (members e s (dens_of s) b))) with (q := fun k => qk k) (pat := thepat c) (leg := legP s)
        (mats := fun k => momK (PO s) (legP s k)) (ps := props c) (slot := prop_slot s (dens_of s) pt); [| | | | | | |exact EP].
      2: exact A1. 2: exact A2. 2: exact A3.
      - intros a. destruct a as [m'| | |k| | | ]; cbn [atom_of]; try apply none_ok.
        + destruct (lookup (members e s (dens_of s) b) m') as [w|] eqn:EL; [|apply none_ok]. destruct (members_in _ _ _ _ _ EL) as (X1 & y' & X2 & ->).
          rewrite (A4 m' y' X1 X2). apply par_good; [exact (slot_found b1 pt)|left; reflexivity].
        + apply (plain_ok (rh sl) _ HZ _ HInv). intros p' Hp'. destruct (Nat.ltb k 4) eqn:Hk; [|discriminate Hp']. apply Nat.ltb_lt in Hk. apply sinj in Hp'. rewrite <- Hp'.
          rewrite (RM k Hk). eapply mass_leg; eassumption.
      - intros k Hk. pose proof (leg_ok e HF v F HM Hin Hout HE sl slots k Hk) as X1. fold s in X1. unfold lmap, cm_leg in X1.
        pose proof (f_equal (@k_x C) X1) as X2. pose proof (f_equal (@k_y C) X1) as X3. pose proof (f_equal (@k_c C) X1) as X4. pose proof (f_equal (@k_s C) X1) as X5. cbn [k_x k_y k_c k_s] in X2, X3, X4, X5.
        rewrite q_rtp, q_rtm, q_hc by assumption. destruct (q_hsx P t F Hin Hout Hcc Hss Hu k Hk) as [X6 X7]. rewrite X6. repeat split; assumption.
      - intros k Hk. eapply mom_ok; eassumption.
      - intros r k p' Hp'. unfold prop_slot in Hp'. destruct (lookup pt r) as [[m2 w2]|] eqn:EL; [|discriminate Hp'].
        destruct (find_slot_ok b1 pt k m2 w2 p' Hp') as [Hk XX]. etransitivity; [exact XX|]. clear XX. destruct (pt_value b pt EB EPT r m2 w2 EL) as (y' & Y1 & Y2 & Y3 & Y4). rewrite (Y4 _).
        destruct (or_R _ _ _ _ _ _ _ HO _ _ Y1) as [W1 W2]. unfold RTs in W1, W2. destruct (R8 r Y2) as [V1 V2].
        set (P' := mkSM 0 0 0 0 (dP (pr_m y')) 0 0 (width_value w2) (fun _ => 0)).
        rewrite (den_value st eps rT (amp_of junk c o2) (fun k => qk k) A1 P' (fun j => pvec (qk j)) (fun _ _ _ _ => eq_refl) r k Bh Hk).
        + f_equal. symmetry. exact (cm_den _ _ k Hk).
        + rewrite V1. exact W1.
        + rewrite V2. etransitivity; [exact W2|exact Y3]. }
    etransitivity; [exact V3|]. do 3 f_equal. etransitivity; [exact V4'|]. symmetry. exact HEV.
  Qed.

  Hypothesis HAG : amps_agree e = true.
  (** every helicity amplitude *)
  Theorem fresh_amp h rs n z : forallb no_setter h = true -> forallb reading rs = true -> nth_error (configs c []) n = Some z ->
    let g := callm (num:=num) junk c n_set_momenta [GMom (num:=num) (qk 0); GMom (num:=num) (qk 1); GMom (num:=num) (qk 2); GMom (num:=num) (qk 3)]
               (snd (orun (num:=num) junk c h o)) in
    let M := feynman_tree P t F (hel (spins_of e z)) in
    fst g = Ok None /\
    fst (callm (num:=num) junk c n_amp (map GI z) (snd (orun (num:=num) junk c rs (snd g)))) = Ok (Some (RtC (num:=num) (if sign_at e n then Copp M else M))).
  Proof.
    intros Hh Hrs Hn g M. destruct (code_value h rs Hh Hrs) as (HOk & b & b1 & EB & EA & HV2). fold g in HOk, HV2. split; [exact HOk|].
    pose proof HAG as AG. unfold amps_agree in AG. rewrite EB, EA in AG. unfold full_setup in AG. cbv zeta in AG.
    destruct (props_of e (setup0 e) no_dens) as [pt|] eqn:EPT; [|discriminate AG]. specialize (HV2 pt eq_refl). cbv zeta in HV2.
    set (slots := slots_for e (setup0 e) pt b1) in *. set (s := with_slots (setup0 e) slots) in *.
    destruct (spec_slots e s (dens_of s)) eqn:HSS; [|discriminate AG].
    set (sl := sl_of b1 pt) in *. set (W := weval (rh sl)) in *.
    assert (HZ : forall p, Zu s (dens_of s) p = true -> W p = RtoC 0) by exact (s_Zu b1 pt).
    pose proof (agree_nth _ _ _ AG n z Hn) as X. cbv beta in X. rewrite Nat.add_0_l in X.
    destruct (pinner (Qj (thepat c)) c b1 n_amp z) as [|x|y] eqn:EY; try discriminate X.
    destruct (ev_code e s (dens_of s) (members e s (dens_of s) b) pt y) as [p|] eqn:EP; [|discriminate X]. apply HZ in X.
    etransitivity; [exact (HV2 _ _ _ _ EY EP)|]. do 3 f_equal. fold sl W.
    set (sp := ev_spec e s (dens_of s) (hel (spins_of e z))) in *.
    assert (HM : W sp = M) by exact (spec_ok b1 pt HSS (hel (spins_of e z))). rewrite <- HM.
    destruct (sign_at e n).
    - exact (opp_sum _ _ (eq_trans (eq_sym (wadd_ok (rh sl) p sp)) X)).
    - exact (eq_diff _ _ (eq_trans (eq_sym (wsub_ok (rh sl) p sp)) X)).
  Qed.

  Hypothesis HSC : sum_check e = true.
  Theorem fresh_tree2 rs : forallb reading rs = true ->
    let g := callm (num:=num) junk c n_set_momenta [GMom (num:=num) (qk 0); GMom (num:=num) (qk 1); GMom (num:=num) (qk 2); GMom (num:=num) (qk 3)] o in
    fst (callm (num:=num) junk c n_amp2 [] (snd (orun (num:=num) junk c rs (snd g)))) = Ok (Some (RtT (num:=num) (feynman_tree2 P t F))).
  Proof.
    intros Hrs g. pose proof HFit as HF. pose proof mass_nonneg as HM.
    destruct checks as (_ & _ & K6 & _ & _).
    pose proof HSC as K. unfold sum_check in K. apply andb_prop in K as [K KS]. apply andb_prop in K as [K KC]. apply andb_prop in K as [K1 K2].
    apply negb_true_iff in K1. apply Nat.eqb_eq in K2.
    assert (HA : argless c n_amp2).
    { unfold amp2_check in K6. destruct (find_meth c n_amp2) as [f|] eqn:EF; [|discriminate K6]. destruct (m_params f) eqn:EQ; [|discriminate K6]. exists f. split; assumption. }
    assert (HR : reached (num:=num) junk c o) by exact (reached_new (num:=num) junk c _ o EC).
    pose proof (leg_held_b 0 ltac:(lia)) as L0. pose proof (leg_held_b 1 ltac:(lia)) as L1. pose proof (leg_held_b 2 ltac:(lia)) as L2. pose proof (leg_held_b 3 ltac:(lia)) as L3.
    assert (HS : forall k, on_shell (pmass P (t k)) (qk k)) by (intros k; apply q_shell; assumption).
    pose proof (fun k m' H => proj1 (leg_zero_b k m' H)) as Z1. pose proof (fun k m' H => proj2 (leg_zero_b k m' H)) as Z2.
    destruct (C48_spin_sums_on_shell c Hc K1 (n_amp2, []) (or_introl eq_refl) HA st eps Heps junk o HR _ _ _ _ L0 L1 L2 L3 Z1 Z2 _ _ _ _ (HS 0%nat) (HS 1%nat) (HS 2%nat) (HS 3%nat) rs Hrs)
      as (M & HMM & HV). cbn [fst snd] in HMM, HV. fold g in HMM, HV.
    set (o2 := snd (orun (num:=num) junk c rs (snd g))) in *.
    rewrite HV. do 3 f_equal. rewrite K2. unfold feynman_tree2.
    assert (AMP : forall n z, nth_error (configs c []) n = Some z -> Cmod (M n_amp z) ^ 2 = Cmod (feynman_tree P t F (hel (spins_of e z))) ^ 2).
    { intros n z Hn. assert (Hcf : In z (configs c [])) by exact (nth_error_In _ _ Hn).
      destruct (fresh_amp [] rs n z eq_refl Hrs Hn) as [_ Y1]. cbv zeta in Y1. fold g o2 in Y1.
      assert (Hst : exists tt, In (n_amp, tt) (structures c)).
      { unfold colour_check in KC. destruct (structures c) as [|[m tt] [|]]; try discriminate KC. apply andb_prop in KC as [KC _]. apply Pos.eqb_eq in KC. subst m. exists tt. left. reflexivity. }
      destruct Hst as (tt & Hst). pose proof (HMM _ _ Hst Hcf) as Y3. cbn [fst] in Y3. pose proof (eq_trans (eq_sym Y1) Y3) as Y4. injection Y4 as Y4. rewrite <- Y4.
      destruct (sign_at e n); [rewrite Cmod_opp|]; reflexivity. }
    assert (COL : forall z, In z (configs c []) -> Rsum (fun col => Cmod (amplitude c M z col) ^ 2) (colourings c) = colour_sum t * Cmod (feynman_tree P t F (hel (spins_of e z))) ^ 2).
    { intros z Hz. apply In_nth_error in Hz as (n & Hn). rewrite <- (AMP n z Hn). unfold colour_check in KC. unfold amplitude.
      destruct (structures c) as [|[m tt] [|]]; try discriminate KC. apply andb_prop in KC as [K8 K9]. apply Pos.eqb_eq in K8. subst m.
      destruct (SpinColour.gram tt tt (colourings c)) as [gr|] eqn:EG; [|discriminate K9].
      assert (EQ : Q2R gr = colour_sum t).
      { apply Qeq_bool_eq in K9. rewrite (Qeq_eqR _ _ K9). unfold colour_z, colour_sum, Q2R, inject_Z. cbn [Qnum Qden].
        destruct (with_gluon (ts e)); [|destruct (existsb _ _)]; lra. }
      rewrite <- EQ, <- (colour_total tt _ _ _ EG). apply Rsum_ext. intros col _. f_equal. f_equal. cbn [Csum fold_right map fst snd]. ring. }
    rewrite (Rsum_ext _ (fun z => colour_sum t * Cmod (feynman_tree P t F (hel (spins_of e z))) ^ 2)) by (intros z Hz; exact (COL z Hz)).
    rewrite Rsum_mult. rewrite <- (Rsum_map (fun h => Cmod (feynman_tree P t F (hel h)) ^ 2) (spins_of e)).
    rewrite (shuffled_ok _ _ _ KS). rewrite rsum_Rsum. change (fun h : list Z => Cmod (feynman_tree P t F (hel h)) ^ 2) with (fun h : list Z => Cmod (feynman_tree P t F (fun k => nth k h 0%Z)) ^ 2). fold t. ring.
  Qed.
End Fresh.
