(** * The methods that take spins: C43, C44, C45 and C51 for them

    C43, C44, C45 and C51 are about the methods without arguments (amp2 and its variants).  Here the
    same for those that take spins: amp, and amp_... of the classes with four quarks. *)
From Coq Require Import List Bool ZArith String Lia Reals Lra.
From Verif Require Import Base Scalar RealNum Linear Integers Particle Sproduct Propagator Process
  ParticleProofs SpecSpinor ParticleReal SpinorReal Ready ParticleClaims
  WorldProofs Lang LangFrame Pure PureProofs ReadOnly Sym SymEq SMNames SMRun SMTwins SMMasses SMAll SMChecks SMState PropsClasses PropsConstruct
  SMAmp2 SpinColour SMInv SMRebuild PropsRebuild PropsAmp2 Copies PropsCopy IEEE SMFloat SM06.
Import ListNotations.
Open Scope nat_scope.

(** methods all of whose parameters, at least one, are integers *)
Definition takes_spins (c : cls) (m : id) : Prop :=
  exists f, find_meth c m = Some f /\ m_params f <> [] /\ forall p, In p (m_params f) -> snd p = PkI.

Definition spin_methods (c : cls) : list id :=
  flat_map (fun f => match m_params f with [] => [] | l => if forallb (fun p => match snd p with PkI => true | _ => false end) l then [m_name f] else [] end) (c_methods c).
Lemma spin_methods_in c m : takes_spins c m -> In m (spin_methods c).
Proof.
  intros (f & E & HN & HP). destruct (find_meth_in c m f E) as [Hf Hn]. apply in_flat_map. exists f. split; [exact Hf|].
  destruct (m_params f) as [|p l] eqn:EP; [contradiction HN; reflexivity|].
  replace (forallb (fun p => match snd p with PkI => true | _ => false end) (p :: l)) with true; [left; exact Hn|].
  symmetry. apply forallb_forall. intros x Hx. rewrite (HP x Hx). reflexivity.
Qed.

(** Every such method, run symbolically for every list of spins and for all the sixteen choices
    of legs without mass, has a result; it returns if the masses fit. *)
Definition amp_runs (c : cls) : bool :=
  match shape c with
  | POk b => forallb (fun pat => match after c (dyn_mask c) b pat with
      | POk (None, b1) => forallb (fun m => forallb (fun z =>
          match pinner (Qj pat) c b1 m z with PNone => false | POk _ => true | PExn _ => negb (fits c pat) end) (configs c [])) (spin_methods c)
      | _ => false end) all_pats
  | _ => false
  end.
Lemma sm_amp_runs : forallb amp_runs sm_classes = true.
Proof. vm_cast_no_check (eq_refl true). Qed.

Lemma amp_run c b pat b1 m z : In c sm_classes -> shape c = POk b -> In pat all_pats -> after c (dyn_mask c) b pat = POk (None, b1) ->
  takes_spins c m -> In z (configs c []) ->
  match pinner (Qj pat) c b1 m z with PNone => false | POk _ => true | PExn _ => negb (fits c pat) end = true.
Proof.
  intros Hc EB HI EA Hm Hz. pose proof (proj1 (forallb_forall _ _) sm_amp_runs c Hc) as K. unfold amp_runs in K. rewrite EB in K.
  pose proof (proj1 (forallb_forall _ _) K pat HI) as K1. cbv beta in K1. rewrite EA in K1.
  pose proof (proj1 (forallb_forall _ _) K1 m (spin_methods_in c m Hm)) as K2. cbv beta in K2.
  exact (proj1 (forallb_forall _ _) K2 z Hz).
Qed.

Section Two.
  Context {num : Num}.
  Hypothesis HP : polar_total (num:=num).
  Variable junk : id -> nat -> T num.
  Variable c : cls.
  Hypothesis Hc : In c sm_classes.

  Lemma callm_is m args (o : obj num) : fst (callm junk c m args o) =
    fst (match find_meth c m with Some f => invoke junk (run junk c 1) f args | None => slift (UB TypeMismatch) end o).
  Proof. reflexivity. Qed.

  (** objects that agree in all that set_momenta leaves *)
  Lemma twin_amps b o1 o2 q rs1 rs2 m z : shape c = POk b -> twin (dyn_mask c) b o1 o2 -> length q = 4 ->
    isOk (fst (callm junk c n_set_momenta (map GMom q) o1)) = true -> isOk (fst (callm junk c n_set_momenta (map GMom q) o2)) = true ->
    forallb reading rs1 = true -> forallb reading rs2 = true -> takes_spins c m -> In z (configs c []) ->
    fst (callm junk c m (map GI z) (snd (orun junk c rs1 (snd (callm junk c n_set_momenta (map GMom q) o1))))) =
    fst (callm junk c m (map GI z) (snd (orun junk c rs2 (snd (callm junk c n_set_momenta (map GMom q) o2))))).
  Proof.
    intros EB (S1 & S2 & o0 & vT & vR & HAg) HL HOk1 HOk2 R1 R2 Hm Hz. destruct (HAg q) as (A1 & A2).
    destruct (shape_c c Hc) as (b' & EB' & HM & HA). rewrite EB in EB'. injection EB' as <-.
    pose proof (returned_accepted c (dyn_mask c) b (takes_c c Hc) junk vT vR o1 o0 q HL A1 HOk1) as HAc.
    destruct (given_state c (dyn_mask c) b (argless_list c) HP (takes_c c Hc) HA (fun _ _ => c0) junk vT vR o1 o0 q HL S1 A1 HOk1) as (b1 & Eb & O1).
    destruct (given_state c (dyn_mask c) b (argless_list c) HP (takes_c c Hc) HA (fun _ _ => c0) junk vT vR o2 o0 q HL S2 A2 HOk2) as (b2 & Eb2 & O2).
    rewrite Eb in Eb2. injection Eb2 as <-. set (E := ext_of o0 q []) in *.
    apply (reads_keep c _ _ _ _ _ junk rs1 _ (reading_reads c rs1 Hc R1)) in O1. apply (reads_keep c _ _ _ _ _ junk rs2 _ (reading_reads c rs2 Hc R2)) in O2.
    pose proof (Qj_ok vT vR E (fun _ _ => c0) _ HP HAc (pat_of_ok o0 q)) as HQ.
    pose proof (inner_ref true _ _ _ (sym_hom _ _) (Qj (pat_of E)) HQ junk c (run junk c 1) _ b1 m z O1) as K1.
    pose proof (inner_ref true _ _ _ (sym_hom _ _) (Qj (pat_of E)) HQ junk c (run junk c 1) _ b1 m z O2) as K2.
    pose proof (amp_run c b (pat_of E) b1 m z Hc EB (all_pats_in _ _ _ _) Eb Hm Hz) as X.
    rewrite !callm_is. unfold REF in K1, K2. destruct (pinner (Qj (pat_of E)) c b1 m z) as [|e|y]; [discriminate X| |].
    - match type of K1 with match fst ?r with _ => _ end => destruct (fst r) as [?|e1|?]; [contradiction| |discriminate K1] end.
      match type of K2 with match fst ?r with _ => _ end => destruct (fst r) as [?|e2|?]; [contradiction| |discriminate K2] end.
      destruct K1 as [->|]; [|discriminate]. destruct K2 as [->|]; [|discriminate]. reflexivity.
    - match type of K1 with match ?r with _ => _ end => destruct r as [[r1|?|?] o1']; try discriminate K1 end.
      match type of K2 with match ?r with _ => _ end => destruct r as [[r2|?|?] o2']; try discriminate K2 end.
      destruct K1 as ((x1 & -> & H1) & _), K2 as ((x2 & -> & H2) & _). cbn [fst]. do 3 f_equal. etransitivity; [exact H1|symmetry; exact H2].
  Qed.
End Two.

(** C43 for the methods with spins. *)
Theorem C43_amplitudes :
  forall c, In c sm_classes ->
  forall (num : Num), polar_total (num:=num) ->
  forall (junk : id -> nat -> T num) (params : list (T num)) (o : obj num),
    construct junk c params = (Ok tt, o) ->
  forall h1 h2 : list (ocall num), forallb no_setter h1 = true -> forallb no_setter h2 = true ->
  forall q1 q2 q3 q4 : mom num,
    let given o := callm junk c n_set_momenta [GMom q1; GMom q2; GMom q3; GMom q4] o in
    let g1 := given (snd (orun junk c h1 o)) in
    let g2 := given (snd (orun junk c h2 o)) in
    isOk (fst g1) = true ->
    forall rs1 rs2, forallb reading rs1 = true -> forallb reading rs2 = true ->
    forall m z, takes_spins c m -> In z (configs c []) ->
      fst (callm junk c m (map GI z) (snd (orun junk c rs1 (snd g1)))) =
      fst (callm junk c m (map GI z) (snd (orun junk c rs2 (snd g2)))).
Proof.
  intros c Hc num HP junk params o EC h1 h2 H1 H2 q1 q2 q3 q4 given g1 g2 HOk rs1 rs2 R1 R2 m z Hm Hz.
  destruct (C43_last_momenta c Hc num HP junk params o EC h1 h2 H1 H2 q1 q2 q3 q4) as (K & _).
  destruct (shape_c c Hc) as (b & EB & HM & HA).
  assert (HS : shaped b o) by (eapply construct_shaped; eauto).
  assert (HT : twin (dyn_mask c) b (snd (orun junk c h1 o)) (snd (orun junk c h2 o))).
  { apply (twin_like _ _ o o); [reflexivity| |apply like_history; assumption|apply like_history; assumption].
    apply twin_self; [exact HS|]. intros x Hx. eapply construct_known; eauto. }
  refine (twin_amps HP junk c Hc b _ _ [q1; q2; q3; q4] rs1 rs2 m z EB HT eq_refl HOk _ R1 R2 Hm Hz).
  change (isOk (fst g2) = true). change (fst g1 = fst g2) in K. rewrite <- K. exact HOk.
Qed.
Print Assumptions C43_amplitudes.

Theorem C43_amplitudes_masses :
  forall c, In c sm_classes ->
  forall (num : Num), polar_total (num:=num) ->
  forall (junk : id -> nat -> T num) (params : list (T num)) (o : obj num),
    construct junk c params = (Ok tt, o) ->
  forall h1 h2 : list (ocall num), forallb not_set_v h1 = true -> forallb not_set_v h2 = true ->
  forall (masses : list (T num)) r1 r2 o1 o2,
    callm junk c n_set_masses (map GT masses) (snd (orun junk c h1 o)) = (Ok r1, o1) ->
    callm junk c n_set_masses (map GT masses) (snd (orun junk c h2 o)) = (Ok r2, o2) ->
  forall h1' h2' : list (ocall num), forallb no_setter h1' = true -> forallb no_setter h2' = true ->
  forall q1 q2 q3 q4 : mom num,
    let given o := callm junk c n_set_momenta [GMom q1; GMom q2; GMom q3; GMom q4] o in
    let g1 := given (snd (orun junk c h1' o1)) in
    let g2 := given (snd (orun junk c h2' o2)) in
    isOk (fst g1) = true ->
    forall rs1 rs2, forallb reading rs1 = true -> forallb reading rs2 = true ->
    forall m z, takes_spins c m -> In z (configs c []) ->
      fst (callm junk c m (map GI z) (snd (orun junk c rs1 (snd g1)))) =
      fst (callm junk c m (map GI z) (snd (orun junk c rs2 (snd g2)))).
Proof.
  intros c Hc num HP junk params o EC h1 h2 H1 H2 masses r1 r2 o1 o2 E1 E2 h1' h2' H1' H2' q1 q2 q3 q4 given g1 g2 HOk rs1 rs2 R1 R2 m z Hm Hz.
  destruct (C43_last_masses_and_momenta c Hc num HP junk params o EC h1 h2 H1 H2 masses r1 r2 o1 o2 E1 E2 h1' h2' H1' H2' q1 q2 q3 q4) as (K & _).
  destruct (shape_c c Hc) as (b & EB & HM & HA).
  assert (HS : shaped b o) by (eapply construct_shaped; eauto).
  destruct (has_set_masses junk c _ _ _ _ E1) as (f & EF). destruct (setm_c c Hc b f EF EB) as (HSig & b2 & EB2 & HCl).
  assert (HT : twin (dyn_mask c) b o1 o2).
  { eapply (masses_twins c b junk junk o (snd (orun junk c h1 o)) (snd (orun junk c h2 o)) masses r1 r2 o1 o2 b2); eauto.
    - apply mass_ok; [exact Hc|reflexivity].
    - intros x Hx. eapply construct_known; eauto.
    - apply like_history_m; assumption.
    - apply like_history_m; assumption. }
  assert (HT' : twin (dyn_mask c) b (snd (orun junk c h1' o1)) (snd (orun junk c h2' o2))).
  { apply (twin_like _ _ o1 o2); [reflexivity|exact HT|apply like_history; assumption|apply like_history; assumption]. }
  refine (twin_amps HP junk c Hc b _ _ [q1; q2; q3; q4] rs1 rs2 m z EB HT' eq_refl HOk _ R1 R2 Hm Hz).
  change (isOk (fst g2) = true). change (fst g1 = fst g2) in K. rewrite <- K. exact HOk.
Qed.
Print Assumptions C43_amplitudes_masses.

(** C44 for the methods with spins, in exact arithmetic.  Missing: the classes of [stale], as in
    C44_rebuilding_reals_partial. *)
Lemma rebuilt_twin_reals c st eps : In c sm_classes -> named stale c = false ->
  forall (junk : id -> nat -> T (RN st eps)) (params masses : list R) (o o1 o2 : obj (RN st eps)) r h b, shape c = POk b ->
    construct (num:=RN st eps) junk c params = (Ok tt, o) -> forallb not_set_v h = true ->
    callm (num:=RN st eps) junk c n_set_masses (map (GT (num:=RN st eps)) masses) (snd (orun (num:=RN st eps) junk c h o)) = (Ok r, o1) ->
    construct (num:=RN st eps) junk c (rebuilt c params masses) = (Ok tt, o2) ->
    twin (dyn_mask c) b o1 o2.
Proof.
  intros Hc Hs junk params masses o o1 o2 r h b EB EC Hh E1 E2.
  assert (L : literals (RN st eps)) by (split; cbn; unfold Q2R; cbn; lra).
  assert (G : forall exc, same_as_rebuilt exc c = true ->
    (forall b2 x y y2, setm c b = POk b2 -> In x exc -> b_T b x = Some y -> b_T b2 x = Some y2 -> equal_terms c b junk params masses y y2) -> twin (dyn_mask c) b o1 o2).
  { intros exc HSame HX. destruct (shape_c c Hc) as (b' & EB' & HM & HA). rewrite EB in EB'. injection EB' as <-.
    destruct (has_set_masses (num:=RN st eps) junk c _ _ _ _ E1) as (f & EF). destruct (setm_c c Hc b f EF EB) as (HSig & b2 & EB2 & _).
    assert (HOff : (length (c_params c) < off)%nat).
    { unfold same_as_rebuilt in HSame. apply andb_prop in HSame as [K _]. apply Nat.ltb_lt, K. }
    eapply (rebuilt_twin c b b2 junk params masses o (snd (orun (num:=RN st eps) junk c h o)) o1 o2 EB HM EB2 HSig HOff EC
      (like_history_m junk c h o Hc Hh) r E1 E2 exc); eauto. apply mass_ok; [exact Hc|reflexivity]. }
  destruct (named reworded c) eqn:Hr.
  - pose proof (proj1 (forallb_forall _ _) sm_reworded c Hc) as K. cbv beta in K. rewrite Hr in K. cbn [negb orb] in K.
    apply (G (reworded_members c) K). intros b2 x y y2 EB2 Hx Ey Ey2. apply pairs_equal. rewrite <- pairs_eq.
    refine (proj2 (in_flat_map term_pairs (filter (named reworded) sm_classes) _) (ex_intro _ c (conj (proj2 (filter_In _ _ _) (conj Hc Hr)) _))).
    unfold term_pairs. rewrite EB, EB2. apply in_flat_map. exists x. split; [exact Hx|]. rewrite Ey, Ey2. left. reflexivity.
  - pose proof (proj1 (forallb_forall _ _) sm_rebuilt c Hc) as K. cbv beta in K. rewrite Hs, Hr in K. cbn [orb] in K.
    destruct (named ["gggg"%string] c) eqn:Eg; cbn [orb] in K.
    + pose proof (proj1 (forallb_forall _ _) no_set_masses c Hc) as G'. cbv beta in G'. rewrite Eg in G'. cbn [negb orb] in G'.
      destruct (has_set_masses (num:=RN st eps) junk c _ _ _ _ E1) as (f & EF). rewrite EF in G'. discriminate G'.
    + apply (G [] K). intros. contradiction.
Qed.

Theorem C44_amplitudes_partial :
  forall c, In c sm_classes -> named stale c = false ->
  forall st eps (junk : id -> nat -> T (RN st eps)) (params masses : list R) (o o1 o2 : obj (RN st eps)) r (h h1 h2 : list (ocall (RN st eps))),
    construct (num:=RN st eps) junk c params = (Ok tt, o) -> forallb not_set_v h = true ->
    callm (num:=RN st eps) junk c n_set_masses (map (GT (num:=RN st eps)) masses) (snd (orun (num:=RN st eps) junk c h o)) = (Ok r, o1) ->
    construct (num:=RN st eps) junk c (rebuilt c params masses) = (Ok tt, o2) ->
    forallb no_setter h1 = true -> forallb no_setter h2 = true ->
  forall q1 q2 q3 q4 : vec4 R,
    let given o := callm (num:=RN st eps) junk c n_set_momenta [GMom (num:=RN st eps) q1; GMom (num:=RN st eps) q2; GMom (num:=RN st eps) q3; GMom (num:=RN st eps) q4] o in
    let g1 := given (snd (orun (num:=RN st eps) junk c h1 o1)) in
    let g2 := given (snd (orun (num:=RN st eps) junk c h2 o2)) in
    isOk (fst g1) = true ->
    forall rs1 rs2, forallb reading rs1 = true -> forallb reading rs2 = true ->
    forall m z, takes_spins c m -> In z (configs c []) ->
      fst (callm (num:=RN st eps) junk c m (map GI z) (snd (orun (num:=RN st eps) junk c rs1 (snd g1)))) =
      fst (callm (num:=RN st eps) junk c m (map GI z) (snd (orun (num:=RN st eps) junk c rs2 (snd g2)))).
Proof.
  intros c Hc Hs st eps junk params masses o o1 o2 r h h1 h2 EC Hh E1 E2 H1 H2 q1 q2 q3 q4 given g1 g2 HOk rs1 rs2 R1 R2 m z Hm Hz.
  destruct (C44_rebuilding_reals_partial c Hc Hs st eps junk params masses o o1 o2 r h h1 h2 EC Hh E1 E2 H1 H2 q1 q2 q3 q4) as (K & _).
  destruct (shape_c c Hc) as (b & EB & HM & HA).
  pose proof (rebuilt_twin_reals c st eps Hc Hs junk params masses o o1 o2 r h b EB EC Hh E1 E2) as HT.
  assert (HT' : twin (dyn_mask c) b (snd (orun (num:=RN st eps) junk c h1 o1)) (snd (orun (num:=RN st eps) junk c h2 o2))).
  { apply (twin_like _ _ o1 o2); [reflexivity|exact HT|apply like_history; assumption|apply like_history; assumption]. }
  refine (twin_amps (polar_real st eps) junk c Hc b _ _ [q1; q2; q3; q4] rs1 rs2 m z EB HT' eq_refl HOk _ R1 R2 Hm Hz).
  change (isOk (fst g2) = true). change (fst g1 = fst g2) in K. rewrite <- K. exact HOk.
Qed.
Print Assumptions C44_amplitudes_partial.

(** C45 for the methods with spins. *)
Theorem C45_amplitudes :
  forall c, In c sm_classes ->
  forall (num : Num), polar_total (num:=num) ->
  forall (junk : id -> nat -> T num) (o : obj num), reached junk c o ->
  forall m1 m2 m3 m4 : T num,
    leg_mass o 0 m1 -> leg_mass o 1 m2 -> leg_mass o 2 m3 -> leg_mass o 3 m4 ->
    right_mass c 0 m1 -> right_mass c 1 m2 -> right_mass c 2 m3 -> right_mass c 3 m4 ->
  forall q1 q2 q3 q4 : mom num,
    fst (particle_new (fun _ => tZ 0) q1 m1) = Ok tt -> fst (particle_new (fun _ => tZ 0) q2 m2) = Ok tt ->
    fst (particle_new (fun _ => tZ 0) q3 m3) = Ok tt -> fst (particle_new (fun _ => tZ 0) q4 m4) = Ok tt ->
    let g := callm junk c n_set_momenta [GMom q1; GMom q2; GMom q3; GMom q4] o in
    fst g = Ok None /\
    forall rs, forallb reading rs = true ->
    forall m z, takes_spins c m -> In z (configs c []) ->
      exists x, fst (callm junk c m (map GI z) (snd (orun junk c rs (snd g)))) = Ok (Some (RtC x)).
Proof.
  intros c Hc num HP junk o HR m1 m2 m3 m4 L1 L2 L3 L4 R1 R2 R3 R4 q1 q2 q3 q4 A1 A2 A3 A4 g.
  destruct (C45_no_exception c Hc num HP junk o HR m1 m2 m3 m4 L1 L2 L3 L4 R1 R2 R3 R4 q1 q2 q3 q4 A1 A2 A3 A4) as (G & _).
  split; [exact G|]. intros rs Hrs m z Hm Hz.
  destruct L1 as (P1 & E1 & M1), L2 as (P2 & E2 & M2), L3 as (P3 & E3 & M3), L4 as (P4 & E4 & M4).
  destruct (shape_c c Hc) as (b & EB & HM & HA).
  destruct (reached_twin junk c b o Hc EB HM HR) as (HS & _ & o0 & vT & vR & HAg).
  set (q := [q1; q2; q3; q4]). destruct (HAg q) as [AG _]. set (E := ext_of o0 q []) in *.
  assert (XM : x_m E 0%nat = m1 /\ x_m E 1%nat = m2 /\ x_m E 2%nat = m3 /\ x_m E 3%nat = m4).
  { assert (K : forall p P m, (p < 4)%nat -> nth_error (o_heap o) p = Some P -> mass P = Ok m -> x_m E p = m).
    { intros p P m' Hp Ep Em. destruct (ag_m _ _ _ _ _ _ AG p Hp) as (P' & F1 & F2). rewrite Ep in F1. injection F1 as <-.
      unfold mass in Em. rewrite F2 in Em. change (Ok (x_m E p) = Ok m') in Em. congruence. }
    repeat split; [apply (K 0%nat P1)|apply (K 1%nat P2)|apply (K 2%nat P3)|apply (K 3%nat P4)]; auto; lia. }
  destruct XM as (X1 & X2 & X3 & X4).
  assert (HF : fits c (pat_of E) = true).
  { unfold fits. cbn [seq forallb]. unfold right_mass in *. cbn [pat_of mkpat]. rewrite X1, X2, X3, X4.
    destruct (leg c 0), (leg c 1), (leg c 2), (leg c 3); subst; rewrite ?Bool.eqb_reflx; reflexivity. }
  assert (HOk : isOk (fst (callm junk c n_set_momenta (map GMom q) o)) = true) by exact (f_equal isOk G).
  pose proof (returned_accepted c (dyn_mask c) b (takes_c c Hc) junk vT vR o o0 q eq_refl AG HOk) as HAc.
  destruct (given_state c (dyn_mask c) b (argless_list c) HP (takes_c c Hc) HA (fun _ _ => c0) junk vT vR o o0 q eq_refl HS AG HOk) as (b1 & Eb & O1).
  fold E in Eb, O1. apply (reads_keep c _ _ _ _ _ junk rs _ (reading_reads c rs Hc Hrs)) in O1.
  pose proof (Qj_ok vT vR E (fun _ _ => c0) _ HP HAc (pat_of_ok o0 q)) as HQ.
  pose proof (inner_ref true _ _ _ (sym_hom _ _) (Qj (pat_of E)) HQ junk c (run junk c 1) _ b1 m z O1) as K1.
  pose proof (amp_run c b (pat_of E) b1 m z Hc EB (all_pats_in _ _ _ _) Eb Hm Hz) as X. rewrite HF in X.
  rewrite callm_is. unfold REF in K1. destruct (pinner (Qj (pat_of E)) c b1 m z) as [|e|y]; [discriminate X|discriminate X|].
  match type of K1 with match ?r with _ => _ end => destruct r as [[r1|?|?] o1'] eqn:ER; try discriminate K1 end.
  destruct K1 as ((x1 & -> & H1) & _). exists x1. change (snd (callm junk c n_set_momenta (map GMom q) o)) with (snd g) in ER. rewrite ER. reflexivity.
Qed.
Print Assumptions C45_amplitudes.

(** C51 for the methods with spins, what holds: calls on a copy do not change what the original
    answers.  Missing: the copy itself, as in C51_original_unharmed_partial. *)
Theorem C51_original_amplitudes_partial :
  forall c, In c sm_classes ->
  forall (num : Num), polar_total (num:=num) ->
  forall (junk : id -> nat -> T num) (o : obj num), reached junk c o ->
  forall q1 q2 q3 q4 : mom num,
    let g := callm junk c n_set_momenta [GMom q1; GMom q2; GMom q3; GMom q4] o in
    isOk (fst g) = true ->
  forall rs, forallb reading rs = true ->
    let o1 := snd (orun junk c rs (snd g)) in
  forall (h : list (ocall num)) m z, takes_spins c m -> In z (configs c []) ->
    fst (callm junk c m (map GI z) (original o1 (snd (orun junk (shift 4 c) h (copied o1))))) = fst (callm junk c m (map GI z) o1).
Proof.
  intros c Hc num HP junk o HR q1 q2 q3 q4 g HOk rs Hrs o1 h m z Hm Hz.
  destruct (reached_state junk c o [q1; q2; q3; q4] rs Hc HP HR eq_refl HOk Hrs) as (b & pat & b1 & rT & EB & HI & EA & _ & _ & _ & _ & HQ).
  destruct (HQ (fun _ _ => c0)) as (HQ1 & (D & HO)). change (ORD true (RTs rT (fun _ _ => c0)) (RCs rT (fun _ _ => c0)) (Qj pat) D o1 b1) in HO.
  pose proof (blind_history junk c h (proj1 (forallb_forall _ _) sm_make c Hc) (copied o1)) as [[HL HB] _].
  set (o' := snd (orun junk (shift 4 c) h (copied o1))) in *.
  destruct (shape_c c Hc) as (b0 & EB0 & HMs & HA). rewrite EB in EB0. injection EB0 as <-.
  destruct (reached_twin junk c b o Hc EB HMs HR) as (HS & _).
  assert (HP4 : length (b_P b1) = 4%nat).
  { rewrite <- (or_len _ _ _ _ _ _ _ HO). pose proof (sh_h _ _ HS) as E.
    pose proof (method_quiet junk c (dyn_mask c) n_set_momenta [GMom q1; GMom q2; GMom q3; GMom q4] (dyn_ok c Hc n_set_momenta eq_refl) o) as L1.
    fold g in L1.
    assert (L2 : like (dyn_mask c) (snd g) o1).
    { apply like_history; [exact Hc|]. rewrite forallb_forall in *. intros [m' a'] Hk. specialize (Hrs _ Hk). cbn in Hrs |- *.
      unfold reader in Hrs. apply negb_true_iff in Hrs. apply orb_false_iff in Hrs as [Hrs _]. apply orb_false_iff in Hrs as [Hrs _].
      rewrite Hrs. reflexivity. }
    destruct (like_h _ _ _ L1) as [E1 _]. destruct (like_h _ _ _ L2) as [E2 _]. congruence. }
  assert (HLen : length (o_heap o1) = 4%nat) by (rewrite (or_len _ _ _ _ _ _ _ HO); exact HP4).
  assert (HF : forall a P, nth_error (o_heap o1) a = Some P -> exists P', nth_error (firstn 4 (o_heap o')) a = Some P' /\
    pa_m P' = pa_m P /\ (coh P -> coh P' /\ uncached P' = uncached P)).
  { intros a P E. assert (Ha : a < 4) by (rewrite <- HLen; apply nth_error_Some; congruence).
    destruct (HB a P Ha) as (P' & E1 & E2 & E3); [unfold copied; cbn [o_heap u_heap]; rewrite nth_error_app1 by lia; exact E|].
    exists P'. split; [|auto]. rewrite <- E1. rewrite <- (firstn_skipn 4 (o_heap o')) at 2. symmetry. apply nth_error_app1.
    rewrite firstn_length, HL. unfold copied. cbn [o_heap u_heap]. rewrite app_length, HLen. cbn. lia. }
  assert (HO' : OR true (RTs rT (fun _ _ => c0)) (RCs rT (fun _ _ => c0)) (Qj pat) (original o1 o') b1).
  { exists D. apply ORD_heap; [exact HO| |].
    - intros a P E. destruct (HF a P E) as (P' & E1 & _ & E3). eauto.
    - split.
      + rewrite firstn_length, HL. unfold copied. cbn [o_heap u_heap]. rewrite app_length, HLen. reflexivity.
      + intros a P E. destruct (HF a P E) as (P' & E1 & E2 & _). eauto. }
  pose proof (inner_ref true _ _ _ (sym_hom _ _) (Qj pat) HQ1 junk c (run junk c 1) _ b1 m z (ex_intro _ D HO)) as K1.
  pose proof (inner_ref true _ _ _ (sym_hom _ _) (Qj pat) HQ1 junk c (run junk c 1) _ b1 m z HO') as K2.
  pose proof (amp_run c b pat b1 m z Hc EB HI EA Hm Hz) as X.
  rewrite !callm_is. unfold REF in K1, K2. destruct (pinner (Qj pat) c b1 m z) as [|e|y]; [discriminate X| |].
  - match type of K1 with match fst ?r with _ => _ end => destruct (fst r) as [?|e1|?]; [contradiction| |discriminate K1] end.
    match type of K2 with match fst ?r with _ => _ end => destruct (fst r) as [?|e2|?]; [contradiction| |discriminate K2] end.
    destruct K1 as [->|]; [|discriminate]. destruct K2 as [->|]; [|discriminate]. reflexivity.
  - match type of K1 with match ?r with _ => _ end => destruct r as [[r1|?|?] o1']; try discriminate K1 end.
    match type of K2 with match ?r with _ => _ end => destruct r as [[r2|?|?] o2']; try discriminate K2 end.
    destruct K1 as ((x1 & -> & H1) & _), K2 as ((x2 & -> & H2) & _). cbn [fst]. do 3 f_equal. etransitivity; [exact H2|symmetry; exact H1].
Qed.
Print Assumptions C51_original_amplitudes_partial.

(** *** Example: amp of eemm in x87 extended arithmetic, the object and momenta of C43_example *)
Definition fsum (zs : list (list Z)) (m : id) (o : obj XN) : bool :=
  existsb (fun z => match fst (callm junk0 eemm m (map GI z) o) with Ok (Some (RtC x)) => finite_nonzero (cre (n:=XN) x) || finite_nonzero (cim (n:=XN) x) | _ => false end) zs.
Example C43_amplitudes_example :
  In eemm sm_classes /\ takes_spins eemm n_amp /\ List.length (configs eemm []) = 16%nat /\ In [1; 1; 1; -1]%Z (configs eemm []) /\
  fsum (configs eemm []) n_amp (snd (fmomenta eemm ex_momenta (snd (fbuild eemm ex_params)))) = true.
Proof.
  refine (conj _ (conj _ (conj _ (conj _ _)))).
  - unfold sm_classes. rewrite !in_app_iff. cbn. tauto.
  - exists (match find_meth eemm n_amp with Some f => f | None => mkMeth xH [] SSkip end). split; [reflexivity|]. split; [discriminate|].
    cbn. intros p [<-|[<-|[<-|[<-|[]]]]]; reflexivity.
  - reflexivity.
  - cbn. tauto.
  - vm_cast_no_check (eq_refl true).
Qed.
