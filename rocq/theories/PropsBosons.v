(** * Processes with outer bosons: amp2 is the square of the amplitude of the Feynman rules *)
From Coq Require Import Reals QArith Qreals List Bool String Lra Lia FunctionalExtensionality.
From Coquelicot Require Import Complex.
From Verif Require Import Base Scalar RealNum Linear Integers Particle Sproduct Propagator Process
  ParticleProofs SpecSpinor ParticleReal SpinorReal Ready ParticleClaims SpecSproduct SpecChain ChainReal Lorentz
  WorldProofs Lang LangFrame Pure PureProofs ReadOnly Sym SymEq SMNames SMRun SMTwins SMMasses SMAll SMChecks SMState PropsClasses PropsConstruct
  SMAmp2 SpinColour SMInv SMRebuild PropsRebuild PropsAmp2 PropsGluons Poly Covariant CovReal PropsLorentz PropsQED PropsWidth
  Feynman FeynmanAlg FeynmanSum FeynmanLegs FeynmanFlat FeynmanTable FeynmanMatch FeynmanMirror PropsFeynman
  BosonSpec BosonHom Tower BosonCode BosonCodeOk BosonKin BosonFrame BosonSetup BosonMatch BosonCM BosonTable BosonCheck1 BosonCheck2 BosonCheck3 BosonCheck4 BosonCheck5.
Import ListNotations.
Close Scope Q_scope.
Open Scope nat_scope.
Open Scope R_scope.

Lemma bosons_agree : forallb amps_agree boson_entries = true.
Proof. unfold boson_entries. rewrite !forallb_app, agree1, agree2, agree3, agree4, agree5. reflexivity. Qed.
Lemma bosons_checked : forallb boson_check boson_entries = true.
Proof. vm_cast_no_check (eq_refl true). Qed.
Definition b_places : list nat := Eval vm_compute in map (fun e => class_at (c_name (b_cls e)) sm_classes) boson_entries.
Lemma b_places_ok : map b_cls boson_entries = map (fun i => nth i sm_classes eemm) b_places.
Proof. vm_cast_no_check (eq_refl (map b_cls boson_entries)). Qed.
Lemma b_places_in : forallb (fun i => Nat.ltb i (length sm_classes)) b_places = true.
Proof. vm_cast_no_check (eq_refl true). Qed.
Lemma boson_sm e : In e boson_entries -> In (b_cls e) sm_classes.
Proof.
  intros H. apply (in_map b_cls) in H. rewrite b_places_ok in H. apply in_map_iff in H as (i & Hi & H). rewrite <- Hi.
  apply nth_In, Nat.ltb_lt. exact (proj1 (forallb_forall _ _) b_places_in i H).
Qed.

(** ** The kinematics
    Positive masses of the legs but those of photon, gluon and neutrino; momenta before and after
    that are not 0, an angle that is neither 0 nor pi, energy conserved, no propagator on its pole. *)
Definition kinematics (P : standard_model) (t : nat -> ptype) (F : frame) : Prop :=
  (forall k, (k < 4)%nat -> heavy (t k) = true -> 0 < pmass P (t k)) /\
  0 < f_in F /\ 0 < f_out F /\ 0 < f_c F /\ 0 < f_s F /\ f_c F * f_c F + f_s F * f_s F = 1 /\
  cm_energy P t F 0 + cm_energy P t F 1 = cm_energy P t F 2 + cm_energy P t F 3 /\
  (forall j p, In (j, p) (poles t) -> tree_den P p (invariant P t F j) <> RtoC 0).

(** C57.  For every class of [boson_entries], all parameters of the constructor (if it takes the
    weak angle and mW, 0 < sin of the weak angle < 1 and 0 < mW; if it takes v instead, 0 < v e,
    and then sw and mW are any with 2 mW sw = v e: C57_vev; widths 0 for the classes of [narrow], any
    widths for the others, with propagators 1 / (k^2 - m^2 - i m w)), every momentum and angle in the
    centre-of-mass frame, all momenta that a Lorentz transformation takes these to, whatever
    happened since the construction (no setters of parameters) and whatever is read in between:
    amp2 is the square of the amplitude of the Feynman rules in the centre-of-mass frame, summed over
    helicities and colours and averaged over the initial ones. *)
Theorem C57_feynman_rules_bosons :
  forall e, In e boson_entries -> let c := b_cls e in let t := ts e in
  forall st eps, 0 <= eps ->
  forall (junk : id -> nat -> T (RN st eps)) (params : list R) (o : obj (RN st eps)),
    construct (num:=RN st eps) junk c params = (Ok tt, o) ->
  let v := fun j => nth j params 0 in let P := b_model e v in
    (weakly c = true -> 0 < sm_sw P < 1 /\ 0 < sm_mW P) ->
    (forall x, In x (b_zero e) -> par c v x = 0) ->
    (b_narrow e = true -> par c v n_widthW = 0 /\ par c v n_widthZ = 0 /\ par c v n_widthh = 0) ->
  forall F, kinematics P t F ->
  forall L, detm st eps L = RtoC 1 ->
  forall q1 q2 q3 q4 : vec4 R, let q k := match k with 0 => q1 | 1 => q2 | 2 => q3 | _ => q4 end%nat in
    (forall k, (k < 4)%nat -> moved st eps L (cm_q P t F k) (q k)) ->
  forall h, forallb no_setter h = true ->
    let g := callm (num:=RN st eps) junk c n_set_momenta [GMom (num:=RN st eps) q1; GMom (num:=RN st eps) q2; GMom (num:=RN st eps) q3; GMom (num:=RN st eps) q4]
               (snd (orun (num:=RN st eps) junk c h o)) in
  forall rs, forallb reading rs = true ->
    fst g = Ok None /\
    fst (callm (num:=RN st eps) junk c n_amp2 [] (snd (orun (num:=RN st eps) junk c rs (snd g)))) =
      Ok (Some (RtT (num:=RN st eps) (feynman_tree2 P t F))).
Proof.
  intros e He c t st eps Heps junk params o EC v P HW Hz Hw F (Hh & Hin & Hout & Hc' & Hs & Hu & HE & HP) L HD q1 q2 q3 q4 q HV h Hno g rs Hrs.
  pose proof (boson_sm e He) as Hc. pose proof (proj1 (forallb_forall _ _) bosons_agree e He) as AG. pose proof (proj1 (forallb_forall _ _) bosons_checked e He) as BC'. apply andb_prop in BC' as [BC SC].
  assert (HR : reached (num:=RN st eps) junk c o) by exact (reached_new (num:=RN st eps) junk c _ o EC).
  assert (HA : argless c n_amp2).
  { destruct (checks e BC) as (_ & _ & K & _). unfold amp2_check in K. fold c in K. destruct (find_meth c n_amp2) as [f|] eqn:EF; [|discriminate K].
    destruct (m_params f) eqn:EQ; [|discriminate K]. exists f. split; assumption. }
  set (mk := fun k => pmass P (t k)).
  assert (LH : forall k, (k < 4)%nat -> leg_mass (num:=RN st eps) o k (mk k)) by (intros k Hk; eapply leg_held_b; eassumption).
  pose proof (leg_zero_b e BC params Hh) as LZ.
  assert (S' : forall k, on_shell (mk k) (cm_q P t F k)) by (intros k; apply q_shell; assumption).
  assert (E' : forall k, (k < 4)%nat -> 0 <= v_0 (cm_q P t F k)) by (intros k _; apply sqrt_pos).
  assert (SQ : forall k, (k < 4)%nat -> on_shell (mk k) (q k)).
  { intros k Hk. unfold on_shell. etransitivity; [exact (moved_dot st eps L HD _ _ _ _ (HV k Hk) (HV k Hk))|exact (S' k)]. }
  assert (HR' : reached (num:=RN st eps) junk c (snd (orun (num:=RN st eps) junk c h o))) by (apply reached_history; assumption).
  split.
  { assert (LH' : forall k, (k < 4)%nat -> leg_mass (num:=RN st eps) (snd (orun (num:=RN st eps) junk c h o)) k (mk k)) by (intros k Hk; apply legs_history; auto).
    destruct (C45_no_exception_on_shell c Hc st eps Heps junk _ HR' _ _ _ _ (LH' 0%nat ltac:(lia)) (LH' 1%nat ltac:(lia)) (LH' 2%nat ltac:(lia)) (LH' 3%nat ltac:(lia))
      (fun k m' H => proj1 (LZ k m' H)) (fun k m' H => proj2 (LZ k m' H)) q1 q2 q3 q4 (SQ 0%nat ltac:(lia)) (SQ 1%nat ltac:(lia)) (SQ 2%nat ltac:(lia)) (SQ 3%nat ltac:(lia))) as (HOk & _).
    exact HOk. }
  destruct (lorentz_amp2 st eps L Heps HD c Hc (n_amp2, []) (or_introl eq_refl) HA junk o HR _ _ _ _ (LH 0%nat ltac:(lia)) (LH 1%nat ltac:(lia)) (LH 2%nat ltac:(lia)) (LH 3%nat ltac:(lia))
    (fun k m' H => proj1 (LZ k m' H)) (fun k m' H => proj2 (LZ k m' H)) _ _ _ _ (S' 0%nat) (S' 1%nat) (S' 2%nat) (S' 3%nat)
    (E' 0%nat ltac:(lia)) (E' 1%nat ltac:(lia)) (E' 2%nat ltac:(lia)) (E' 3%nat ltac:(lia)) q1 q2 q3 q4 (HV 0%nat ltac:(lia)) (HV 1%nat ltac:(lia)) (HV 2%nat ltac:(lia)) (HV 3%nat ltac:(lia))
    h Hno [] rs eq_refl Hrs) as (x & X1 & X2). cbn [fst] in X1, X2.
  pose proof (fresh_tree2 st eps Heps e Hc BC junk params o EC Hh HW Hz Hw F Hin Hout Hc' Hs Hu HE HP AG SC [] eq_refl) as X3. cbv zeta in X3.
  etransitivity; [exact X2|]. etransitivity; [symmetry; exact X1|exact X3].
Qed.
Print Assumptions C57_feynman_rules_bosons.

(** The same for all momenta: on shell, energies not negative, conserved, the particles not along
    one line in the centre-of-mass frame, no propagator on its pole.  They come from some momentum and
    angle in that frame. *)
Theorem C57_every_frame :
  forall e, In e boson_entries -> let c := b_cls e in let t := ts e in
  forall st eps, 0 <= eps ->
  forall (junk : id -> nat -> T (RN st eps)) (params : list R) (o : obj (RN st eps)),
    construct (num:=RN st eps) junk c params = (Ok tt, o) ->
  let v := fun j => nth j params 0 in let P := b_model e v in
    (weakly c = true -> 0 < sm_sw P < 1 /\ 0 < sm_mW P) ->
    (forall x, In x (b_zero e) -> par c v x = 0) ->
    (b_narrow e = true -> par c v n_widthW = 0 /\ par c v n_widthZ = 0 /\ par c v n_widthh = 0) ->
    (forall k, (k < 4)%nat -> heavy (t k) = true -> 0 < pmass P (t k)) ->
  forall q1 q2 q3 q4 : vec4 R, let q k := match k with 0 => q1 | 1 => q2 | 2 => q3 | _ => q4 end%nat in
    (forall k, (k < 4)%nat -> on_shell (pmass P (t k)) (q k) /\ 0 <= v_0 (q k)) -> vadd q1 q2 = vadd q3 q4 ->
    0 < minksq (vadd q1 q2) -> gram3 q1 q2 q3 <> 0 ->
    (forall j p, In (j, p) (poles t) -> tree_den P p (square4 (transfer (fun k => pvec (q k)) 0 (S j))) <> RtoC 0) ->
  forall h, forallb no_setter h = true ->
    let g := callm (num:=RN st eps) junk c n_set_momenta [GMom (num:=RN st eps) q1; GMom (num:=RN st eps) q2; GMom (num:=RN st eps) q3; GMom (num:=RN st eps) q4]
               (snd (orun (num:=RN st eps) junk c h o)) in
  forall rs, forallb reading rs = true ->
  exists F L, kinematics P t F /\ detm st eps L = RtoC 1 /\ (forall k, (k < 4)%nat -> moved st eps L (cm_q P t F k) (q k)) /\
    fst g = Ok None /\
    fst (callm (num:=RN st eps) junk c n_amp2 [] (snd (orun (num:=RN st eps) junk c rs (snd g)))) =
      Ok (Some (RtT (num:=RN st eps) (feynman_tree2 P t F))).
Proof.
  intros e He c t st eps Heps junk params o EC v P HW Hz Hw Hh q1 q2 q3 q4 q HS HC Hs HG HP h Hno g rs Hrs.
  destruct (cm_frame st eps P t q HS HC Hs HG) as (L & F & HD & Hin & Hout & Hc' & Hs' & Hu & HE & HV). exists F, L.
  assert (K : kinematics P t F).
  { do 7 (split; [assumption|]). intros j p Hj. specialize (HP j p Hj).
    assert (J : (j < 3)%nat) by exact (poles_lt e j p Hj).
    assert (X : square4 (transfer (fun k => pvec (q k)) 0 (S j)) = invariant P t F j); [|rewrite <- X; exact HP].
    assert (A : forall f : nat -> vec4 R, square4 (transfer (fun k => pvec (f k)) 0 (S j)) =
      minkdot (f 0%nat) (f 0%nat) + minkdot (f (S j)) (f (S j)) + (if goes_out (S j) then -2 else 2) * minkdot (f 0%nat) (f (S j))).
    { intros f. unfold square4, transfer, ingoing, minkdot. change (goes_out 0) with false. destruct (goes_out (S j)); unfold pvec; ring. }
    transitivity (square4 (transfer (fun k => pvec (cm_q P t F k)) 0 (S j))).
    - rewrite !A. pose proof (HV 0%nat ltac:(lia)) as V0. pose proof (HV (S j) ltac:(lia)) as V1.
      rewrite (moved_dot st eps L HD _ _ _ _ V0 V0), (moved_dot st eps L HD _ _ _ _ V1 V1), (moved_dot st eps L HD _ _ _ _ V0 V1). reflexivity.
    - unfold invariant, square4, transfer, ingoing, pvec, cm_q. cbn [v_0 v_1 v_2 v_3]. reflexivity. }
  split; [exact K|]. split; [exact HD|]. split; [exact HV|].
  exact (C57_feynman_rules_bosons e He st eps Heps junk params o EC HW Hz Hw F K L HD q1 q2 q3 q4 HV h Hno rs Hrs).
Qed.
Print Assumptions C57_every_frame.

(** The same after set_masses: the masses are then those given to it.  (C44 says which classes
    set_masses leaves with stale data: for those it is false.) *)
Theorem C57_feynman_rules_set_masses :
  forall e, In e boson_entries -> let c := b_cls e in let t := ts e in named stale c = false ->
  forall st eps, 0 <= eps ->
  forall (junk : id -> nat -> T (RN st eps)) (params masses : list R) (o o1 o2 : obj (RN st eps)) r h0,
    construct (num:=RN st eps) junk c params = (Ok tt, o) -> forallb not_set_v h0 = true ->
    callm (num:=RN st eps) junk c n_set_masses (map (GT (num:=RN st eps)) masses) (snd (orun (num:=RN st eps) junk c h0 o)) = (Ok r, o1) ->
    construct (num:=RN st eps) junk c (rebuilt c params masses) = (Ok tt, o2) ->
  let v := fun j => nth j (rebuilt c params masses) 0 in let P := b_model e v in
    (weakly c = true -> 0 < sm_sw P < 1 /\ 0 < sm_mW P) ->
    (forall x, In x (b_zero e) -> par c v x = 0) ->
    (b_narrow e = true -> par c v n_widthW = 0 /\ par c v n_widthZ = 0 /\ par c v n_widthh = 0) ->
  forall F, kinematics P t F ->
  forall L, detm st eps L = RtoC 1 ->
  forall q1 q2 q3 q4 : vec4 R, let q k := match k with 0 => q1 | 1 => q2 | 2 => q3 | _ => q4 end%nat in
    (forall k, (k < 4)%nat -> moved st eps L (cm_q P t F k) (q k)) ->
  forall h, forallb no_setter h = true ->
    let g := callm (num:=RN st eps) junk c n_set_momenta [GMom (num:=RN st eps) q1; GMom (num:=RN st eps) q2; GMom (num:=RN st eps) q3; GMom (num:=RN st eps) q4]
               (snd (orun (num:=RN st eps) junk c h o1)) in
  forall rs, forallb reading rs = true ->
    fst g = Ok None /\
    fst (callm (num:=RN st eps) junk c n_amp2 [] (snd (orun (num:=RN st eps) junk c rs (snd g)))) =
      Ok (Some (RtT (num:=RN st eps) (feynman_tree2 P t F))).
Proof.
  intros e He c t NS st eps Heps junk params masses o o1 o2 r h0 EC Hh0 E1 E2 v P HW Hz Hw F K L HD q1 q2 q3 q4 q HV h Hh g rs Hrs.
  pose proof (boson_sm e He) as Hc.
  assert (HA : argless c n_amp2).
  { pose proof (proj1 (forallb_forall _ _) bosons_checked e He) as BC'. apply andb_prop in BC' as [BC _]. destruct (checks e BC) as (_ & _ & K2 & _). unfold amp2_check in K2. fold c in K2. destruct (find_meth c n_amp2) as [f|] eqn:EF; [|discriminate K2].
    destruct (m_params f) eqn:EQ; [|discriminate K2]. exists f. split; assumption. }
  destruct (C44_rebuilding_reals_partial c Hc NS st eps junk params masses o o1 o2 r h0 h [] EC Hh0 E1 E2 Hh eq_refl q1 q2 q3 q4) as [K1 K2].
  destruct (C57_feynman_rules_bosons e He st eps Heps junk (rebuilt c params masses) o2 E2 HW Hz Hw F K L HD q1 q2 q3 q4 HV [] eq_refl [] eq_refl) as [F1 F2].
  assert (G1 : fst g = Ok None) by (etransitivity; [exact K1|exact F1]). split; [exact G1|].
  etransitivity; [exact (K2 ltac:(change (isOk (fst g) = true); rewrite G1; reflexivity) rs [] Hrs eq_refl n_amp2 HA)|exact F2].
Qed.
Print Assumptions C57_feynman_rules_set_masses.

(** The classes with outer bosons that are not in [boson_entries]. *)
Definition no_entry : list string := ["eeAZ"; "dggd"; "ggdd"; "gguu"; "gugu"; "gggg"]%string.
Theorem C57_classes : forall c, In c sm_classes -> (exists a, In a (legs c) /\ one_of "AgWZh" a = true) ->
  In (c_name c) (map (fun e => c_name (b_cls e)) boson_entries) \/ In (c_name c) no_entry.
Proof.
  intros c Hc (a & Ha & Hb).
  assert (K : forallb (fun c => negb (existsb (one_of "AgWZh") (legs c)) || existsb (String.eqb (c_name c)) (map (fun e => c_name (b_cls e)) boson_entries ++ no_entry)) sm_classes = true)
    by (vm_cast_no_check (eq_refl true)).
  pose proof (proj1 (forallb_forall _ _) K c Hc) as X. cbv beta in X. apply orb_prop in X as [X|X].
  - apply negb_true_iff in X. exfalso. assert (Y : existsb (one_of "AgWZh") (legs c) = true) by (apply existsb_exists; exists a; split; assumption).
    clear - X Y. revert X Y. generalize (existsb (one_of "AgWZh") (legs c)). intros [] X Y; discriminate.
  - apply existsb_exists in X as (n & Hn & E). apply String.eqb_eq in E. subst n. apply in_app_iff in Hn. exact Hn.
Qed.
Print Assumptions C57_classes.
(** The classes for which widths 0 are a hypothesis.  In their amplitudes the code has combined
    diagrams with different propagators; the combination uses k^2 - m^2 without a width. *)
Definition narrow : list string :=
  ["AnWe"; "enAW"; "AWWh"; "AhWW"; "hZZh"; "hWWh"; "hhZZ"; "hhWW"; "AWud"; "AWAW"; "AAWW"; "udAW"; "AWZW"; "AZWW"; "ZWZW"; "ZZWW"; "WWWW2"; "WWWW"]%string.
Theorem C57_widths : forall e, In e boson_entries -> ~ In (c_name (b_cls e)) narrow -> b_narrow e = false.
Proof.
  intros e He Hn.
  assert (K : forallb (fun e => if b_narrow e then existsb (String.eqb (c_name (b_cls e))) narrow else true) boson_entries = true)
    by (vm_cast_no_check (eq_refl true)).
  pose proof (proj1 (forallb_forall _ _) K e He) as X. cbv beta in X. destruct (b_narrow e); [|reflexivity].
  exfalso. apply Hn. apply existsb_exists in X as (n & Hin & E). apply String.eqb_eq in E. rewrite E. exact Hin.
Qed.
Print Assumptions C57_widths.

(** ** The classes that take v instead of the weak angle and mW
    Their amplitudes depend on v = 2 mW sw / e only. *)
Definition vev_legs : list (list ptype) := [[Pf Fe; Pa Fe; PA; Ph]; [Pf Fe; PA; Pf Fe; Ph]].
Lemma any_angle l : In l vev_legs -> let t k := nth k l PA in
  forall P P', sm_e P' = sm_e P -> sm_mh P' = sm_mh P -> (forall f, sm_mass P' f = sm_mass P f) -> sm_sw P' * sm_mW P' = sm_sw P * sm_mW P ->
  forall F h, feynman_tree P' t F h = feynman_tree P t F h.
Proof.
  intros Hl t P P' E1 E2 E3 E4 F h.
  assert (PM : forall k, pmass P' (t k) = pmass P (t k)).
  { intros k. unfold t. destruct Hl as [<-|[<-|[]]]; destruct k as [|[|[|[|[|k]]]]]; cbn [nth pmass]; auto. }
  assert (EN : cm_energy P' t F = cm_energy P t F) by (apply functional_extensionality; intros k; unfold cm_energy; rewrite PM; reflexivity).
  assert (LG : cm_leg P' t F = cm_leg P t F) by (apply functional_extensionality; intros k; unfold cm_leg; rewrite EN, PM; reflexivity).
  assert (IV : invariant P' t F = invariant P t F) by (unfold invariant, cm_mom; rewrite EN; reflexivity).
  assert (KY : o_mul CO (RtoC (/ sm_sw P')) (RtoC (/ sm_mW P')) = o_mul CO (RtoC (/ sm_sw P)) (RtoC (/ sm_mW P))) by (change (o_mul CO) with Cmult; rewrite <- !RtoC_mult, <- !Rinv_mult, E4; reflexivity).
  unfold feynman_tree. rewrite LG, IV, E1. f_equal.
  - f_equal. f_equal. destruct Hl as [<-|[<-|[]]]; reflexivity.
  - set (lg := cm_leg P t F). set (iv := invariant P t F).
    assert (PR : forall j, Cinv (tree_den P' (Pf Fe) (iv j)) = Cinv (tree_den P (Pf Fe) (iv j))) by (intros j; unfold tree_den; cbn [pmass pwidth]; rewrite E3; reflexivity).
    clearbody lg iv. unfold t. destruct Hl as [<-|[<-|[]]];
    cbv [amplitudeK tree outer waveK pair same_pair ordered_pair channel ksumK exchange contact fields of_kind of_sca line nth fst snd flat_map map app taken before charged is_neutrino flavour_eqb
      partner is_up is_quark vkind_eqb antikind eqb generation Nat.eqb Nat.leb fold_right negb andb comes].
    all: rewrite ?PR.
    all: unfold yukawaK; cbn [constsC c_fm c_half c_isw c_imW]; rewrite ?KY, ?E3; reflexivity.
Qed.

Theorem C57_vev : forall e, In e boson_entries -> let c := b_cls e in has c n_vev = true ->
  forall v, let P := b_model e v in
    2 * sm_mW P * sm_sw P = par c v n_vev * sm_e P /\
    forall P', sm_e P' = sm_e P -> sm_mh P' = sm_mh P -> (forall f, sm_mass P' f = sm_mass P f) ->
      2 * sm_mW P' * sm_sw P' = par c v n_vev * sm_e P' ->
    forall F, (kinematics P' (ts e) F <-> kinematics P (ts e) F) /\ feynman_tree2 P' (ts e) F = feynman_tree2 P (ts e) F.
Proof.
  intros e He c Hv v P.
  assert (K : forallb (fun e => negb (has (b_cls e) n_vev) || match b_legs e with [Pf Fe; Pa Fe; PA; Ph] | [Pf Fe; PA; Pf Fe; Ph] => true | _ => false end) boson_entries = true)
    by (vm_cast_no_check (eq_refl true)).
  pose proof (proj1 (forallb_forall _ _) K e He) as X. cbv beta in X. fold c in X. rewrite Hv in X. cbn [negb orb] in X.
  assert (HL : In (b_legs e) vev_legs).
  { clear - X. revert X. generalize (b_legs e). intros l X.
    repeat match type of X with context [match ?a with _ => _ end] => is_var a; destruct a; try discriminate X end; cbn; tauto. }
  assert (E0 : 2 * sm_mW P * sm_sw P = par c v n_vev * sm_e P) by (unfold P, b_model; fold c; cbn [sm_mW sm_sw sm_e]; rewrite Hv; field).
  split; [exact E0|]. intros P' E1 E2 E3 E4 F.
  assert (E5 : sm_sw P' * sm_mW P' = sm_sw P * sm_mW P) by (rewrite E1 in E4; lra).
  assert (TE : ts e = fun k => nth k (b_legs e) PA) by reflexivity.
  assert (FT : forall h, feynman_tree P' (ts e) F h = feynman_tree P (ts e) F h) by (intros h; rewrite TE; exact (any_angle _ HL P P' E1 E2 E3 E5 F h)).
  split.
  - assert (PM : forall k, pmass P' (ts e k) = pmass P (ts e k)).
    { intros k. rewrite TE. destruct HL as [HL|[HL|[]]]; rewrite <- HL; destruct k as [|[|[|[|[|k]]]]]; cbn [nth pmass]; auto. }
    assert (EN : cm_energy P' (ts e) F = cm_energy P (ts e) F) by (apply functional_extensionality; intros k; unfold cm_energy; rewrite PM; reflexivity).
    assert (IV : invariant P' (ts e) F = invariant P (ts e) F) by (unfold invariant, cm_mom; rewrite EN; reflexivity).
    assert (TD : forall j p, In (j, p) (poles (ts e)) -> tree_den P' p (invariant P (ts e) F j) = tree_den P p (invariant P (ts e) F j)).
    { intros j p Hj. assert (Hp : p = Pf Fe) by (rewrite TE in Hj; destruct HL as [HL|[HL|[]]]; rewrite <- HL in Hj; cbn in Hj; repeat (destruct Hj as [Hj|Hj]; [apply pinj in Hj as [_ <-]; reflexivity|]); contradiction).
      subst p. unfold tree_den. cbn [pmass pwidth]. rewrite E3. reflexivity. }
    unfold kinematics. rewrite EN, IV. split; intros (A & B); (split; [intros k; specialize (A k); rewrite ?PM in *; exact A|]);
      destruct B as (B1 & B2 & B3 & B4 & B5 & B6 & B7); do 6 (split; [assumption|]); intros j p Hj; [rewrite <- (TD j p Hj)|rewrite (TD j p Hj)]; exact (B7 j p Hj).
  - unfold feynman_tree2. f_equal. f_equal. apply functional_extensionality. intros h. rewrite FT. reflexivity.
Qed.
Print Assumptions C57_vev.
Lemma eeAh_built : match built true eeAh with POk _ => true | _ => false end = true.
Proof. vm_cast_no_check (eq_refl true). Qed.
Definition ee_Ah : bentry := BEntry eeAh [Pf Fe; Pa Fe; PA; Ph] Ke [] false [false; true; true; false] "----++++" false.
(** e- e+ -> A h: e = 1, me = 5, mh = 13, v = 2, so that mW sw = 1, for instance mW = 2 and sw = 1/2. *)
Example C57_vev_ex :
  exists o : obj (RN false 0), construct (num:=RN false 0) (fun _ _ => 0) eeAh [1; 5; 13; 2] = (Ok tt, o) /\
    let P := mkSM 1 0 (1 / 2) 2 13 0 0 0 (fun f => match f with Fe => 5 | _ => 0 end) in
    let t k := nth k [Pf Fe; Pa Fe; PA; Ph] PA in let F := mkFrame 12 (39 / 4) (4 / 5) (3 / 5) in
    cm_q P t F 2 = V4 (39 / 4) (234 / 25) 0 (273 / 100) /\ cm_q P t F 3 = V4 (65 / 4) (- (234 / 25)) 0 (- (273 / 100)) /\
    let g := callm (num:=RN false 0) (fun _ _ => 0) eeAh n_set_momenta
      [GMom (num:=RN false 0) (V4 13 0 0 12); GMom (num:=RN false 0) (V4 13 0 0 (-12)); GMom (num:=RN false 0) (V4 (39 / 4) (234 / 25) 0 (273 / 100)); GMom (num:=RN false 0) (V4 (65 / 4) (- (234 / 25)) 0 (- (273 / 100)))] o in
    fst (callm (num:=RN false 0) (fun _ _ => 0) eeAh n_amp2 [] (snd g)) = Ok (Some (RtT (num:=RN false 0) (feynman_tree2 P t F))).
Proof.
  destruct (built true eeAh) as [|x|b] eqn:EB; [pose proof eeAh_built as X; rewrite EB in X; discriminate X|pose proof eeAh_built as X; rewrite EB in X; discriminate X|].
  destruct (new_real 0 (fun _ _ => 0) eeAh [1; 5; 13; 2] b EB eq_refl) as (o & _ & EC & _). exists o. split; [exact EC|]. cbv zeta.
  set (P := mkSM 1 0 (1 / 2) 2 13 0 0 0 (fun f => match f with Fe => 5 | _ => 0 end)). set (F := mkFrame 12 (39 / 4) (4 / 5) (3 / 5)). set (t := fun k => nth k [Pf Fe; Pa Fe; PA; Ph] PA).
  assert (He : In ee_Ah boson_entries) by (unfold boson_entries; apply in_or_app; left; unfold boson_entries1; do 14 apply in_cons; apply in_eq).
  assert (EN : cm_energy P t F 0 = 13 /\ cm_energy P t F 1 = 13 /\ cm_energy P t F 2 = 39 / 4 /\ cm_energy P t F 3 = 65 / 4).
  { unfold cm_energy. repeat split.
    - replace (pmass P (t 0%nat) * pmass P (t 0%nat) + cm_p F 0 * cm_p F 0) with (13 * 13) by (cbn; lra). apply sqrt_square. lra.
    - replace (pmass P (t 1%nat) * pmass P (t 1%nat) + cm_p F 1 * cm_p F 1) with (13 * 13) by (cbn; lra). apply sqrt_square. lra.
    - replace (pmass P (t 2%nat) * pmass P (t 2%nat) + cm_p F 2 * cm_p F 2) with (39 / 4 * (39 / 4)) by (cbn; lra). apply sqrt_square. lra.
    - replace (pmass P (t 3%nat) * pmass P (t 3%nat) + cm_p F 3 * cm_p F 3) with (65 / 4 * (65 / 4)) by (cbn; lra). apply sqrt_square. lra. }
  destruct EN as (N0 & N1 & N2 & N3).
  assert (Q0 : cm_q P t F 0 = V4 13 0 0 12) by (unfold cm_q, cm_mom; rewrite N0; cbn; f_equal; lra).
  assert (Q1 : cm_q P t F 1 = V4 13 0 0 (-12)) by (unfold cm_q, cm_mom; rewrite N1; cbn; f_equal; lra).
  assert (Q2 : cm_q P t F 2 = V4 (39 / 4) (234 / 25) 0 (273 / 100)) by (unfold cm_q, cm_mom; rewrite N2; cbn; f_equal; lra).
  assert (Q3 : cm_q P t F 3 = V4 (65 / 4) (- (234 / 25)) 0 (- (273 / 100))) by (unfold cm_q, cm_mom; rewrite N3; cbn; f_equal; lra).
  split; [exact Q2|]. split; [exact Q3|].
  set (P0 := b_model ee_Ah (fun j => nth j [1; 5; 13; 2] 0)).
  assert (EM : forall f, sm_mass P f = sm_mass P0 f) by (intros []; reflexivity).
  destruct (C57_vev ee_Ah He eq_refl (fun j => nth j [1; 5; 13; 2] 0)) as [V0 V]. cbv zeta in V, V0. fold P0 in V, V0.
  destruct (V P eq_refl eq_refl EM ltac:(cbn; lra) F) as [VK VT]. change (ts ee_Ah) with t in VK, VT.
  assert (KI : kinematics P t F).
  { split; [intros [|[|[|[|k]]]] Hk Hh; [..|lia]; try discriminate Hh; cbn; lra|]. do 4 (split; [cbn; lra|]). split; [cbn; lra|]. split; [rewrite N0, N1, N2, N3; lra|].
    intros j p Hj HZ. assert (HZ' : invariant P t F j = pmass P p * pmass P p) by (unfold tree_den, RtoC in HZ; injection HZ as HZ _; lra). revert HZ'. clear HZ. change (invariant P t F j <> pmass P p * pmass P p).
    assert (PL : poles t = [(1, Pf Fe); (2, Pf Fe)]%nat) by reflexivity. rewrite PL in Hj.
    destruct Hj as [Hj|[Hj|[]]]; apply pinj in Hj as [<- <-]; unfold invariant, square4, transfer, ingoing, cm_mom; rewrite ?N0, ?N2, ?N3; cbn; lra. }
  assert (QP : forall k, (k < 4)%nat -> cm_q P t F k = cm_q P0 t F k).
  { intros k Hk. unfold cm_q, cm_mom, cm_energy. replace (pmass P (t k)) with (pmass P0 (t k)); [reflexivity|]. destruct k as [|[|[|[|k]]]]; [..|lia]; reflexivity. }
  pose proof (C57_feynman_rules_bosons ee_Ah He false 0 (Rle_refl 0) (fun _ _ => 0) [1; 5; 13; 2] o EC) as K. cbv zeta in K. fold P0 in K. change (ts ee_Ah) with t in K. change (b_cls ee_Ah) with eeAh in K.
  rewrite <- Q0, <- Q1, <- Q2, <- Q3, !QP by lia. rewrite VT.
  refine (proj2 (K _ _ _ F (proj1 VK KI) (CM (num:=RN false 0) (RtoC 1) (RtoC 0) (RtoC 0) (RtoC 1)) _ _ _ _ _ _ [] eq_refl [] eq_refl)).
  - intros _. cbn. lra.
  - intros x [].
  - discriminate.
  - unfold detm. cbn [m00 m01 m10 m11]. unfold Cminus, Cplus, Copp, Cmult, RtoC. cbn. f_equal; ring.
  - intros [|[|[|[|k]]]] Hk; [..|lia]; apply moved_one.
Qed.

(** ** e- e+ -> W+ W- *)
Lemma eeWW_built : match built true eeWW with POk _ => true | _ => false end = true.
Proof. vm_cast_no_check (eq_refl true). Qed.
Definition ee_WW : bentry := BEntry eeWW [Pf Fe; Pa Fe; PWp; PWm] Ka [] false [false; true; true; true] "++++++++++++++++++------------------" false.
Example C57_example :
  exists o : obj (RN false 0), construct (num:=RN false 0) (fun _ _ => 0) eeWW [1; 5; 2; 1; 5; 3 / 5; 1] = (Ok tt, o) /\
    let P := mkSM 1 0 (3 / 5) 5 2 1 0 1 (fun f => match f with Fe => 5 | _ => 0 end) in
    let t k := nth k [Pf Fe; Pa Fe; PWp; PWm] PA in let F := mkFrame 12 12 (4 / 5) (3 / 5) in
    cm_q P t F 2 = V4 13 (288 / 25) 0 (84 / 25) /\ poles t = [(0, Ph); (0, PA); (0, PZ); (2, Pf Fne)]%nat /\
    let g := callm (num:=RN false 0) (fun _ _ => 0) eeWW n_set_momenta
      [GMom (num:=RN false 0) (V4 13 0 0 12); GMom (num:=RN false 0) (V4 13 0 0 (-12)); GMom (num:=RN false 0) (V4 13 (288 / 25) 0 (84 / 25)); GMom (num:=RN false 0) (V4 13 (- (288 / 25)) 0 (- (84 / 25)))] o in
    fst (callm (num:=RN false 0) (fun _ _ => 0) eeWW n_amp2 [] (snd g)) = Ok (Some (RtT (num:=RN false 0) (feynman_tree2 P t F))).
Proof.
  destruct (built true eeWW) as [|x|b] eqn:EB; [pose proof eeWW_built as X; rewrite EB in X; discriminate X|pose proof eeWW_built as X; rewrite EB in X; discriminate X|].
  destruct (new_real 0 (fun _ _ => 0) eeWW [1; 5; 2; 1; 5; 3 / 5; 1] b EB eq_refl) as (o & _ & EC & _). exists o. split; [exact EC|]. cbv zeta.
  set (P := mkSM 1 0 (3 / 5) 5 2 1 0 1 (fun f => match f with Fe => 5 | _ => 0 end)). set (F := mkFrame 12 12 (4 / 5) (3 / 5)). set (t := fun k => nth k [Pf Fe; Pa Fe; PWp; PWm] PA).
  assert (He : In ee_WW boson_entries) by (unfold boson_entries; do 2 (apply in_or_app; right); apply in_or_app; left; unfold boson_entries3; do 2 apply in_cons; apply in_eq).
  assert (HP : b_model ee_WW (fun j => nth j [1; 5; 2; 1; 5; 3 / 5; 1] 0) = P).
  { unfold b_model, P. f_equal. apply functional_extensionality. intros []; reflexivity. }
  assert (PL : poles t = [(0, Ph); (0, PA); (0, PZ); (2, Pf Fne)]%nat) by reflexivity.
  assert (EN : forall k, (k < 4)%nat -> cm_energy P t F k = 13).
  { intros k Hk. unfold cm_energy. replace (pmass P (t k) * pmass P (t k) + cm_p F k * cm_p F k) with (13 * 13); [apply sqrt_square; lra|].
    destruct k as [|[|[|[|k]]]]; [..|lia]; cbn; lra. }
  assert (Q : forall k, (k < 4)%nat -> cm_q P t F k = V4 13 (cm_p F k * (2 * cm_c F k * cm_s F k)) 0 (cm_p F k * (cm_c F k * cm_c F k - cm_s F k * cm_s F k))).
  { intros k Hk. unfold cm_q, cm_mom. rewrite (EN k Hk). reflexivity. }
  assert (Q0 : cm_q P t F 0 = V4 13 0 0 12) by (rewrite Q by lia; cbn; f_equal; lra).
  assert (Q1 : cm_q P t F 1 = V4 13 0 0 (-12)) by (rewrite Q by lia; cbn; f_equal; lra).
  assert (Q2 : cm_q P t F 2 = V4 13 (288 / 25) 0 (84 / 25)) by (rewrite Q by lia; cbn; f_equal; lra).
  assert (Q3 : cm_q P t F 3 = V4 13 (- (288 / 25)) 0 (- (84 / 25))) by (rewrite Q by lia; cbn; f_equal; lra).
  split; [exact Q2|]. split; [exact PL|].
  assert (KI : kinematics P t F).
  { split; [intros [|[|[|[|k]]]] Hk _; [..|lia]; cbn; lra|]. do 4 (split; [cbn; lra|]). split; [cbn; lra|]. split; [rewrite !EN by lia; ring|].
    intros j p Hj HZ. assert (HZ' : invariant P t F j = pmass P p * pmass P p) by (unfold tree_den, RtoC in HZ; injection HZ as HZ _; lra). revert HZ'. clear HZ. change (invariant P t F j <> pmass P p * pmass P p).
    rewrite PL in Hj. unfold invariant, square4, transfer, ingoing, cm_mom. rewrite !EN by (destruct Hj as [Hj|[Hj|[Hj|[Hj|[]]]]]; apply pinj in Hj as [<- _]; lia).
    assert (CW : sm_cw P = 4 / 5) by (unfold sm_cw; replace (1 - sm_sw P * sm_sw P) with (4 / 5 * (4 / 5)) by (cbn; lra); apply sqrt_square; lra).
    destruct Hj as [Hj|[Hj|[Hj|[Hj|[]]]]]; apply pinj in Hj as [<- <-]; unfold pmass; rewrite ?CW; cbn; lra. }
  pose proof (C57_feynman_rules_bosons ee_WW He false 0 (Rle_refl 0) (fun _ _ => 0) [1; 5; 2; 1; 5; 3 / 5; 1] o EC) as K. cbv zeta in K. rewrite HP in K.
  rewrite <- Q0, <- Q1, <- Q2, <- Q3.
  refine (proj2 (K _ _ _ F KI (CM (num:=RN false 0) (RtoC 1) (RtoC 0) (RtoC 0) (RtoC 1)) _ _ _ _ _ _ [] eq_refl [] eq_refl)).
  - intros _. cbn. lra.
  - intros x [].
  - discriminate.
  - unfold detm. cbn [m00 m01 m10 m11]. unfold Cminus, Cplus, Copp, Cmult, RtoC. cbn. f_equal; ring.
  - intros [|[|[|[|k]]]] Hk; [..|lia]; apply moved_one.
Qed.
