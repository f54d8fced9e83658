(** * Two and four gluons: amp2 is the formula of the textbooks (C58) *)
From Coq Require Import Reals QArith Qreals List Bool String Lra Lia FunctionalExtensionality.
From Coquelicot Require Import Complex.
From Verif Require Import Base Scalar RealNum Linear Integers Particle Sproduct Propagator Process
  ParticleProofs SpecSpinor ParticleReal SpinorReal Ready ParticleClaims SpecSproduct SpecChain ChainReal Lorentz
  WorldProofs Lang LangFrame Pure PureProofs ReadOnly Sym SymEq SMNames SMRun SMTwins SMMasses SMAll SM04 SM07 SM08 SMChecks SMState PropsClasses PropsConstruct
  SMAmp2 SpinColour SMInv SMRebuild PropsRebuild PropsAmp2 PropsGluons Poly Covariant CovReal PropsLorentz PropsQED PropsWidth
  Feynman FeynmanAlg FeynmanSum FeynmanLegs FeynmanFlat FeynmanTable FeynmanMatch FeynmanMirror PropsFeynman
  BosonSpec BosonHom Tower BosonCode BosonCodeOk BosonKin BosonFrame BosonSetup BosonMatch BosonCM Gluons GluonTable GluonSquare.
Import ListNotations.
Close Scope Q_scope.
Open Scope nat_scope.
Open Scope R_scope.
Notation chan := PropsGluons.chan.
Notation vadd := PropsGluons.vadd.
Notation vsub := PropsGluons.vsub.

(** ** The formulas, without the coupling
    Ellis, Stirling, Webber, QCD and Collider Physics, Tables 7.1 and 10.2: gluons into a quark
    pair of mass m, and four gluons (there not divided by 2 for two identical gluons). *)
Definition gg_QQ (m s t u : R) : R :=
  let t1 := (m ^ 2 - t) / s in let t2 := (m ^ 2 - u) / s in let r := 4 * m ^ 2 / s in
  (1 / (6 * t1 * t2) - 3 / 8) * (t1 ^ 2 + t2 ^ 2 + r - r ^ 2 / (4 * t1 * t2)).
Definition gg_gg (s t u : R) : R := 9 / 2 * (3 - t * u / s ^ 2 - s * u / t ^ 2 - s * t / u ^ 2).
(** The classes, which legs are quarks, and the formulas: with a quark on each side s is
    exchanged with t or u, the sign changes, and 3 colours are averaged over instead of 8. *)
Record qcd : Type := mkQcd { q_cls : cls; q_quark : list bool; q_formula : R -> R -> R -> R -> R }.
Definition qcd_table : list qcd :=
  [mkQcd ggdd [false; false; true; true] (fun m s t u => gg_QQ m s t u);
   mkQcd gguu [false; false; true; true] (fun m s t u => gg_QQ m s t u);
   mkQcd gugu [false; true; false; true] (fun m s t u => - (8 / 3) * gg_QQ m t s u);
   mkQcd dggd [true; false; false; true] (fun m s t u => - (8 / 3) * gg_QQ m u s t);
   mkQcd gggg [false; false; false; false] (fun _ s t u => gg_gg s t u / 2)].

(** ** Positive products *)
Section Cm.
  Variable P : standard_model.
  Variable t : nat -> ptype.
  Variable F : frame.
  Hypothesis HM : forall k, 0 <= pmass P (t k).
  Hypothesis Hin : 0 < f_in F.
  Hypothesis Hout : 0 < f_out F.
  Hypothesis Hc : 0 < f_c F.
  Hypothesis Hs : 0 < f_s F.
  Hypothesis Hu : f_c F * f_c F + f_s F * f_s F = 1.
  Lemma cm_dot a b : (a < b < 4)%nat -> 0 < minkdot (cm_q P t F a) (cm_q P t F b).
  Proof.
    intros Hab. pose proof (E_ge P t F HM Hin Hout a) as A. pose proof (E_ge P t F HM Hin Hout b) as B.
    pose proof (p_pos F Hin Hout a) as PA. pose proof (p_pos F Hin Hout b) as PB.
    assert (PP : 0 < cm_p F a * cm_p F b) by (apply Rmult_lt_0_compat; assumption).
    assert (EE : cm_p F a * cm_p F b <= cm_energy P t F a * cm_energy P t F b) by (apply Rmult_le_compat; lra).
    set (w := 2 * cm_c F a * cm_s F a * (2 * cm_c F b * cm_s F b) + (cm_c F a * cm_c F a - cm_s F a * cm_s F a) * (cm_c F b * cm_c F b - cm_s F b * cm_s F b)).
    assert (Q : minkdot (cm_q P t F a) (cm_q P t F b) = cm_energy P t F a * cm_energy P t F b - cm_p F a * cm_p F b * w).
    { unfold minkdot, cm_q, cm_mom, w. cbn [v_0 v_1 v_2 v_3]. ring. }
    rewrite Q. assert (W : w < 1); [|nra].
    unfold w. destruct Hab as [H1 H2]. pose proof (Rmult_lt_0_compat _ _ Hc Hc). pose proof (Rmult_lt_0_compat _ _ Hs Hs).
    destruct a as [|[|[|a]]]; destruct b as [|[|[|[|b]]]]; try lia; cbn [cm_c cm_s]; try lra.
    nra.
  Qed.
  Lemma cm_chan k : (k < 3)%nat -> invariant P t F k = minksq (chan (cm_q P t F 0) (cm_q P t F 1) (cm_q P t F 2) (cm_q P t F 3) k).
  Proof.
    intros Hk. unfold invariant, square4, transfer, ingoing.
    destruct k as [|[|[|k]]]; [..|lia]; unfold chan, vadd, vsub, minksq, cm_q; cbn [goes_out Nat.leb v_0 v_1 v_2 v_3]; ring.
  Qed.
End Cm.
Lemma chan_dots q1 q2 q3 q4 :
  minksq (chan q1 q2 q3 q4 0) = minksq q1 + minksq q2 + 2 * minkdot q1 q2 /\
  minksq (chan q1 q2 q3 q4 1) = minksq q1 + minksq q3 - 2 * minkdot q1 q3 /\
  minksq (chan q1 q2 q3 q4 2) = minksq q1 + minksq q4 - 2 * minkdot q1 q4.
Proof. unfold chan, vadd, vsub, minksq, minkdot. cbn [v_0 v_1 v_2 v_3]. repeat split; ring. Qed.
Lemma across q1 q2 q3 q4 : vadd q1 q2 = vadd q3 q4 ->
  2 * minkdot q1 q3 + minksq q2 + minksq q4 = minksq q1 + minksq q3 + 2 * minkdot q2 q4 /\
  2 * minkdot q1 q4 + minksq q2 + minksq q3 = minksq q1 + minksq q4 + 2 * minkdot q2 q3.
Proof.
  destruct q1 as [a0 a1 a2 a3], q2 as [b0 b1 b2 b3], q3 as [c0 c1 c2 c3], q4 as [d0 d1 d2 d3].
  unfold vadd, minksq, minkdot. cbn [v_0 v_1 v_2 v_3]. intros [= E0 E1 E2 E3].
  assert (F0 : d0 = a0 + b0 - c0) by lra. assert (F1 : d1 = a1 + b1 - c1) by lra.
  assert (F2 : d2 = a2 + b2 - c2) by lra. assert (F3 : d3 = a3 + b3 - c3) by lra. subst. split; ring.
Qed.
Definition pole_leg (t : nat -> ptype) (x : nat * ptype) : bool :=
  let (j, p) := x in
  Nat.ltb j 3 && negb (heavy p && heavy (t 0%nat) && heavy (t (S j))) &&
  match p with
  | Pf f => if heavy (t 0%nat) then mtag_eqb (tag_of (t 0%nat)) (Mtf f) && negb (heavy (t (S j))) else mtag_eqb (tag_of (t (S j))) (Mtf f)
  | _ => false end.
Lemma qcd_poles : forallb (fun x => forallb (pole_leg (ts (snd x))) (poles (ts (snd x)))) qcd_entries = true.
Proof. vm_cast_no_check (eq_refl true). Qed.
Lemma tag_f P t f : mtag_eqb (tag_of t) (Mtf f) = true -> pmass P t = sm_mass P f.
Proof.
  destruct t as [| | | | | |g|g]; cbn [tag_of pmass]; intros H; try discriminate H; destruct (is_neutrino g); try discriminate H; cbn [mtag_eqb] in H; apply flavour_eqb_eq in H; subst; reflexivity.
Qed.

(** ** All momenta *)
Section Any.
  Variables (st : bool) (eps : R).
  Notation num := (RN st eps).
  Hypothesis Heps : 0 <= eps.
  Variables (g : gluons) (e : bentry).
  Hypothesis He : In (g, e) qcd_entries.
  Notation c := (b_cls e).
  Notation t := (ts e).
  Variable junk : id -> nat -> T num.
  Variable params : list R.
  Variable o : obj num.
  Hypothesis EC : construct (num:=num) junk c params = (Ok tt, o).
  Notation v := (given params).
  Notation P := (b_model e v).
  Hypothesis Hheavy : forall k, (k < 4)%nat -> heavy (t k) = true -> 0 < pmass P (t k).
  Hypothesis HW : weakly c = true -> 0 < sm_sw P < 1 /\ 0 < sm_mW P.
  Hypothesis Hzero : forall x, In x (b_zero e) -> par c v x = 0.
  Hypothesis Hwidth : par c v n_widthW = 0 /\ par c v n_widthZ = 0 /\ par c v n_widthh = 0.
  Variables q1 q2 q3 q4 : vec4 R.
  Let q (k : nat) : vec4 R := match k with 0%nat => q1 | 1%nat => q2 | 2%nat => q3 | _ => q4 end.
  Hypothesis HS : forall k, (k < 4)%nat -> on_shell (pmass P (t k)) (q k) /\ 0 <= v_0 (q k).
  Hypothesis HC : vadd q1 q2 = vadd q3 q4.
  Hypothesis Hs : 0 < minksq (vadd q1 q2).
  Hypothesis HG : gram3 q1 q2 q3 <> 0.
  Notation m := (pmass P (t (g_q g))).
  Notation S k := (minksq (chan q1 q2 q3 q4 k)).
  Theorem qcd_any h rs : forallb no_setter h = true -> forallb reading rs = true ->
    let s := callm (num:=num) junk c n_set_momenta [GMom (num:=num) q1; GMom (num:=num) q2; GMom (num:=num) q3; GMom (num:=num) q4] (snd (orun (num:=num) junk c h o)) in
    fst s = Ok None /\
    fst (callm (num:=num) junk c n_amp2 [] (snd (orun (num:=num) junk c rs (snd s)))) = Ok (Some (RtT (num:=num)
      (/ INR (average c []) * (gweight g (gden g m q1 q2 q3 q4) *
        numerator2 RO (all_gluons g) (crossed g) (sm_gs P) (m * m) (S (g_A g) - m * m) (S (g_B g) - m * m) (S (g_G g)))))) /\
    forall a b, (a < b < 4)%nat -> 0 < minkdot (q a) (q b).
  Proof.
    intros Hno Hrs s. pose proof (qcd_sm g e He) as Hc. pose proof (proj1 (forallb_forall _ _) qcd_checked _ He) as BC. cbn [snd] in BC.
    pose proof (mass_nonneg e BC params Hheavy) as HM.
    destruct (cm_frame st eps P t q HS HC Hs HG) as (L & F & HD & Hin & Hout & Hc' & Hs' & Hu & HE & HV).
    assert (DOT : forall a b, (a < 4)%nat -> (b < 4)%nat -> minkdot (q a) (q b) = minkdot (cm_q P t F a) (cm_q P t F b)).
    { intros a b Ha Hb. exact (moved_dot st eps L HD _ _ _ _ (HV a Ha) (HV b Hb)). }
    assert (POS : forall a b, (a < b < 4)%nat -> 0 < minkdot (q a) (q b)).
    { intros a b Hab. rewrite DOT by lia. apply cm_dot; assumption. }
    assert (SQ : forall k, (k < 3)%nat -> S k = invariant P t F k).
    { intros k Hk. rewrite (cm_chan P t F k Hk). destruct (chan_dots q1 q2 q3 q4) as (A0 & A1 & A2).
      destruct (chan_dots (cm_q P t F 0) (cm_q P t F 1) (cm_q P t F 2) (cm_q P t F 3)) as (B0 & B1 & B2).
      change minksq with (fun x => minkdot x x) in *. cbv beta in *.
      pose proof (DOT 0%nat 0%nat ltac:(lia) ltac:(lia)) as D0. pose proof (DOT 1%nat 1%nat ltac:(lia) ltac:(lia)) as D1.
      pose proof (DOT 2%nat 2%nat ltac:(lia) ltac:(lia)) as D2. pose proof (DOT 3%nat 3%nat ltac:(lia) ltac:(lia)) as D3.
      pose proof (DOT 0%nat 1%nat ltac:(lia) ltac:(lia)) as D4. pose proof (DOT 0%nat 2%nat ltac:(lia) ltac:(lia)) as D5. pose proof (DOT 0%nat 3%nat ltac:(lia) ltac:(lia)) as D6.
      cbn [q] in D0, D1, D2, D3, D4, D5, D6.
      destruct k as [|[|[|k]]]; [..|lia]; lra. }
    assert (SH : forall k, (k < 4)%nat -> on_shell (pmass P (t k)) (cm_q P t F k)) by (intros k Hk; apply q_shell; assumption).
    assert (HP : forall j p, In (j, p) (poles t) -> tree_den P p (invariant P t F j) <> RtoC 0).
    { intros j p Hj HZ. assert (HZ' : invariant P t F j = pmass P p * pmass P p) by (unfold tree_den, RtoC in HZ; injection HZ as HZ _; lra). revert HZ'. clear HZ. pose proof (proj1 (forallb_forall _ _) qcd_poles _ He) as K. cbn [snd] in K. pose proof (proj1 (forallb_forall _ _) K _ Hj) as K1. unfold pole_leg in K1.
      apply andb_prop in K1 as [K1 K3]. apply andb_prop in K1 as [K1 K2]. apply Nat.ltb_lt in K1. rewrite (cm_chan P t F j K1).
      destruct (chan_dots (cm_q P t F 0) (cm_q P t F 1) (cm_q P t F 2) (cm_q P t F 3)) as (B0 & B1 & B2).
      pose proof (SH 0%nat ltac:(lia)) as S0. pose proof (SH 1%nat ltac:(lia)) as S1. pose proof (SH 2%nat ltac:(lia)) as S2. pose proof (SH 3%nat ltac:(lia)) as S3. unfold on_shell in S0, S1, S2, S3.
      pose proof (cm_dot P t F HM Hin Hout Hc' Hs' Hu 0 1 ltac:(lia)) as D1. pose proof (cm_dot P t F HM Hin Hout Hc' Hs' Hu 0 2 ltac:(lia)) as D2. pose proof (cm_dot P t F HM Hin Hout Hc' Hs' Hu 0 3 ltac:(lia)) as D3.
      destruct p as [| | | | | |f|f]; try discriminate K3.
      assert (M : pmass P (t 0%nat) = sm_mass P f /\ pmass P (t (Datatypes.S j)) = 0 \/ pmass P (t 0%nat) = 0 /\ pmass P (t (Datatypes.S j)) = sm_mass P f).
      { destruct (heavy (t 0%nat)) eqn:E0.
        - left. apply andb_prop in K3 as [K4 K5]. apply negb_true_iff in K5. split; [exact (tag_f _ _ _ K4)|exact (light_mass e params _ K5)].
        - right. split; [exact (light_mass e params _ E0)|exact (tag_f _ _ _ K3)]. }
      cbn [pmass]. destruct j as [|[|[|j]]]; [..|lia]; destruct M as [[M1 M2]|[M1 M2]]; rewrite M1, M2 in *; lra. }
    assert (HR : reached (num:=num) junk c o) by exact (reached_new (num:=num) junk c _ o EC).
    assert (HR' : reached (num:=num) junk c (snd (orun (num:=num) junk c h o))) by (apply reached_history; assumption).
    assert (HA : argless c n_amp2).
    { destruct (checks e BC) as (_ & _ & K & _). unfold amp2_check in K. destruct (find_meth c n_amp2) as [f|] eqn:EF; [|discriminate K].
      destruct (m_params f) eqn:EQ; [|discriminate K]. exists f. split; assumption. }
    assert (LH : forall k, (k < 4)%nat -> leg_mass (num:=num) o k (pmass P (t k))) by (pose proof (fun _ : b_narrow e = true => Hwidth); intros k Hk; eapply leg_held_b; eassumption).
    pose proof (leg_zero_b e BC params Hheavy) as LZ.
    assert (E' : forall k, (k < 4)%nat -> 0 <= v_0 (cm_q P t F k)) by (intros k _; apply sqrt_pos).
    split; [|split; [|exact POS]].
    - assert (LH' : forall k, (k < 4)%nat -> leg_mass (num:=num) (snd (orun (num:=num) junk c h o)) k (pmass P (t k))) by (intros k Hk; apply legs_history; auto).
      destruct (C45_no_exception_on_shell c Hc st eps Heps junk _ HR' _ _ _ _ (LH' 0%nat ltac:(lia)) (LH' 1%nat ltac:(lia)) (LH' 2%nat ltac:(lia)) (LH' 3%nat ltac:(lia))
        (fun k m' H => proj1 (LZ k m' H)) (fun k m' H => proj2 (LZ k m' H)) q1 q2 q3 q4
        (proj1 (HS 0%nat ltac:(lia))) (proj1 (HS 1%nat ltac:(lia))) (proj1 (HS 2%nat ltac:(lia))) (proj1 (HS 3%nat ltac:(lia)))) as (HOk & _).
      exact HOk.
    - destruct (lorentz_amp2 st eps L Heps HD c Hc (n_amp2, []) (or_introl eq_refl) HA junk o HR _ _ _ _ (LH 0%nat ltac:(lia)) (LH 1%nat ltac:(lia)) (LH 2%nat ltac:(lia)) (LH 3%nat ltac:(lia))
        (fun k m' H => proj1 (LZ k m' H)) (fun k m' H => proj2 (LZ k m' H)) _ _ _ _ (SH 0%nat ltac:(lia)) (SH 1%nat ltac:(lia)) (SH 2%nat ltac:(lia)) (SH 3%nat ltac:(lia))
        (E' 0%nat ltac:(lia)) (E' 1%nat ltac:(lia)) (E' 2%nat ltac:(lia)) (E' 3%nat ltac:(lia)) q1 q2 q3 q4 (HV 0%nat ltac:(lia)) (HV 1%nat ltac:(lia)) (HV 2%nat ltac:(lia)) (HV 3%nat ltac:(lia))
        h Hno [] rs eq_refl Hrs) as (x & X1 & X2). cbn [fst] in X1, X2.
      pose proof (qcd_fresh st eps Heps g e He junk params o EC Hheavy HW Hzero Hwidth F Hin Hout Hc' Hs' Hu HE HP) as X3. cbv zeta in X3.
      pose proof (proj1 (forallb_forall _ _) qcd_named _ He) as K. cbn [fst snd] in K.
      apply andb_prop in K as [K K6]. apply andb_prop in K as [K K5]. apply andb_prop in K as [K K4]. apply andb_prop in K as [K K3].
      apply Nat.ltb_lt in K3, K4, K5, K6.
      assert (GD : forall k, (k < 3)%nat -> gden g m (cm_q P t F 0) (cm_q P t F 1) (cm_q P t F 2) (cm_q P t F 3) k = gden g m q1 q2 q3 q4 k).
      { intros k Hk. unfold gden. rewrite <- (cm_chan P t F k Hk), (SQ k Hk). reflexivity. }
      assert (GW : gweight g (gden g m (cm_q P t F 0) (cm_q P t F 1) (cm_q P t F 2) (cm_q P t F 3)) = gweight g (gden g m q1 q2 q3 q4)).
      { unfold gweight. rewrite !GD by lia. reflexivity. }
      rewrite GW, <- !SQ in X3 by assumption.
      etransitivity; [exact X2|]. etransitivity; [symmetry; exact X1|exact X3].
  Qed.
End Any.

(** ** The algebra *)
Lemma gg_QQ_sym m s t u : s <> 0 -> m ^ 2 - t <> 0 -> m ^ 2 - u <> 0 -> gg_QQ m s t u = gg_QQ m s u t.
Proof. intros S T U. unfold gg_QQ. cbv zeta. field. repeat split; assumption. Qed.
Lemma alg_QQ sg gs m s t u : s <> 0 -> t - m * m <> 0 -> u - m * m <> 0 -> s + t + u = 2 * (m * m) ->
  (6 / (s * (t - m * m)) ^ 2 + 6 / (s * (u - m * m)) ^ 2 - 2 / 3 / ((t - m * m) * (u - m * m)) ^ 2) *
  (8 * (gs * gs * (gs * gs)) * (sg * ((t - m * m) * (u - m * m) * ((t - m * m) * (t - m * m) + (u - m * m) * (u - m * m)) + -4 * (m * m * ((t - m * m) * (u - m * m) * (t - m * m + (u - m * m)))) + -4 * (m * m * (m * m) * ((t - m * m + (u - m * m)) * (t - m * m + (u - m * m)))))))
  = 256 * (gs ^ 4 * (sg * gg_QQ m s t u)).
Proof.
  intros S T U E. unfold gg_QQ. cbv zeta.
  set (A := t - m * m) in *. set (B := u - m * m) in *. assert (ES : s = - (A + B)) by (unfold A, B; lra).
  replace (m ^ 2 - t) with (- A) by (unfold A; ring). replace (m ^ 2 - u) with (- B) by (unfold B; ring). clearbody A B.
  subst s. field. repeat split; try assumption; lra.
Qed.
Lemma alg_gg gs s t u : s <> 0 -> t <> 0 -> u <> 0 -> s + t + u = 0 ->
  (36 / (s * t) ^ 2 + 36 / (s * u) ^ 2 + 36 / (t * u) ^ 2) * (8 * (gs * gs * (gs * gs)) * (s * s * (s * s) + (t * t * (t * t) + u * u * (u * u))))
  = 512 * (gs ^ 4 * (gg_gg s t u / 2)).
Proof. intros S T U E. unfold gg_gg. assert (ES : u = - (s + t)) by lra. subst u. field. repeat split; try assumption; lra. Qed.

Section Table.
  Variables (st : bool) (eps : R).
  Notation num := (RN st eps).
  Hypothesis Heps : 0 <= eps.
  Variables (x : qcd) (g : gluons) (e : bentry) (junk : id -> nat -> T num) (params : list R) (gs m : R) (o : obj num).
  Hypothesis He : In (g, e) qcd_entries.
  Hypothesis EQ : b_cls e = q_cls x.
  Notation c := (q_cls x).
  Notation P := (b_model e (given params)).
  Hypothesis EC : construct (num:=num) junk c params = (Ok tt, o).
  Hypothesis EM : forall k, (k < 4)%nat -> pmass P (ts e k) = if nth k (q_quark x) false then m else 0.
  Hypothesis EH : forall k, (k < 4)%nat -> heavy (ts e k) = nth k (q_quark x) false.
  Hypothesis EW : weakly (q_cls x) = false.
  Hypothesis EZ : b_zero e = [].
  Hypothesis ED : par (q_cls x) (given params) n_widthW = 0 /\ par (q_cls x) (given params) n_widthZ = 0 /\ par (q_cls x) (given params) n_widthh = 0.
  Hypothesis Hm : 0 < m.
  Variables q1 q2 q3 q4 : vec4 R.
  Notation S k := (minksq (chan q1 q2 q3 q4 k)).
  Hypothesis EV : let mu := pmass P (ts e (g_q g)) in
    (forall a b, (a < b < 4)%nat -> 0 < minkdot (nth a [q1; q2; q3; q4] q4) (nth b [q1; q2; q3; q4] q4)) ->
    (forall k, (k < 4)%nat -> on_shell (if nth k (q_quark x) false then m else 0) (nth k [q1; q2; q3; q4] q4)) ->
    S 0%nat + S 1%nat + S 2%nat = minksq q1 + minksq q2 + minksq q3 + minksq q4 ->
    gweight g (gden g mu q1 q2 q3 q4) * numerator2 RO (all_gluons g) (crossed g) (sm_gs P) (mu * mu) (S (g_A g) - mu * mu) (S (g_B g) - mu * mu) (S (g_G g))
    = INR (average c []) * (gs ^ 4 * q_formula x m (S 0%nat) (S 1%nat) (S 2%nat)).
  Hypothesis EA : average c [] <> 0%nat.
  Lemma textbook :
    (forall k, (k < 4)%nat -> on_shell (if nth k (q_quark x) false then m else 0) (nth k [q1; q2; q3; q4] q4) /\ 0 <= v_0 (nth k [q1; q2; q3; q4] q4)) ->
    vadd q1 q2 = vadd q3 q4 -> 0 < minksq (vadd q1 q2) -> gram3 q1 q2 q3 <> 0 ->
    forall h rs, forallb no_setter h = true -> forallb reading rs = true ->
    let s := callm (num:=num) junk c n_set_momenta [GMom (num:=num) q1; GMom (num:=num) q2; GMom (num:=num) q3; GMom (num:=num) q4] (snd (orun (num:=num) junk c h o)) in
    fst s = Ok None /\
    fst (callm (num:=num) junk c n_amp2 [] (snd (orun (num:=num) junk c rs (snd s)))) = Ok (Some (RtT (num:=num) (gs ^ 4 * q_formula x m (S 0%nat) (S 1%nat) (S 2%nat)))).
  Proof.
    intros HS HC H0 HG h rs Hno Hrs s.
    assert (HS' : forall k, (k < 4)%nat -> on_shell (pmass P (ts e k)) (match k with 0%nat => q1 | 1%nat => q2 | 2%nat => q3 | _ => q4 end) /\ 0 <= v_0 (match k with 0%nat => q1 | 1%nat => q2 | 2%nat => q3 | _ => q4 end)).
    { intros k Hk. rewrite (EM k Hk). destruct k as [|[|[|[|k]]]]; [..|lia]; exact (HS _ Hk). }
    destruct (qcd_any st eps Heps g e He junk params o ltac:(rewrite EQ; exact EC)
      ltac:(intros k Hk H; rewrite (EM k Hk), <- (EH k Hk), H; exact Hm)
      ltac:(rewrite EQ, EW; discriminate) ltac:(rewrite EZ; intros ? []) ltac:(rewrite EQ; exact ED) q1 q2 q3 q4 HS' HC H0 HG h rs Hno Hrs) as (A & B & D).
    rewrite EQ in A, B. split; [exact A|]. etransitivity; [exact B|]. do 3 f_equal.
    assert (E : forall a b, (a < b < 4)%nat -> 0 < minkdot (nth a [q1; q2; q3; q4] q4) (nth b [q1; q2; q3; q4] q4)).
    { intros a b Hab. pose proof (D a b Hab) as K. destruct a as [|[|[|a]]]; destruct b as [|[|[|[|b]]]]; try lia; exact K. }
    assert (SUM : S 0%nat + S 1%nat + S 2%nat = minksq q1 + minksq q2 + minksq q3 + minksq q4).
    { destruct (chan_dots q1 q2 q3 q4) as (C0 & C1 & C2). rewrite C0, C1, C2.
      assert (X : minkdot q1 (vadd q1 q2) = minkdot q1 (vadd q3 q4)) by (rewrite HC; reflexivity).
      assert (Y : minksq (vadd q1 q2) = minksq (vadd q3 q4)) by (rewrite HC; reflexivity).
      assert (Z : minksq (vsub (vadd q3 q4) q1) = minksq q2).
      { rewrite <- HC. unfold minksq, vsub, vadd. cbn [v_0 v_1 v_2 v_3]. ring. }
      assert (W : minkdot q1 (vadd q1 q2) = minksq q1 + minkdot q1 q2) by (unfold minksq, minkdot, vadd; cbn [v_0 v_1 v_2 v_3]; ring).
      assert (W' : minkdot q1 (vadd q3 q4) = minkdot q1 q3 + minkdot q1 q4) by (unfold minksq, minkdot, vadd; cbn [v_0 v_1 v_2 v_3]; ring). lra. }
    rewrite (EV E (fun k Hk => proj1 (HS k Hk)) SUM). field. apply not_0_INR. exact EA.
  Qed.
End Table.

Definition no_entry0 : gluons * bentry := (mkGluons EmptyString n_amp (Gluons.Tff 0 1 2 3) (Gluons.Tff 0 2 1 3) 0 0 0 n_amp n_amp 0, BEntry gggg [] Ka [] false [] EmptyString false).
Definition qe (i : nat) : gluons * bentry := nth i qcd_entries no_entry0.
Lemma qe_in i : (i < 5)%nat -> In (fst (qe i), snd (qe i)) qcd_entries.
Proof. intros H. rewrite <- surjective_pairing. apply nth_In. exact H. Qed.
Ltac four := intros [|[|[|[|?]]]] ?; [reflexivity|reflexivity|reflexivity|reflexivity|lia].
Ltac masses H := let S0 := fresh in let S1 := fresh in let S2 := fresh in let S3 := fresh in
  pose proof (H 0%nat ltac:(lia)) as S0; pose proof (H 1%nat ltac:(lia)) as S1; pose proof (H 2%nat ltac:(lia)) as S2; pose proof (H 3%nat ltac:(lia)) as S3;
  unfold on_shell in S0, S1, S2, S3; cbn [q_quark nth] in S0, S1, S2, S3.
Ltac products H := let D1 := fresh in let D2 := fresh in let D3 := fresh in
  pose proof (H 0%nat 1%nat ltac:(lia)) as D1; pose proof (H 0%nat 2%nat ltac:(lia)) as D2; pose proof (H 0%nat 3%nat ltac:(lia)) as D3; cbn [nth] in D1, D2, D3.

(** C58: amp2 of the processes of two gluons and two quarks and of four gluons. *)
Theorem C58_textbook_gluons :
  forall x, In x qcd_table ->
  forall st eps, 0 <= eps ->
  forall (junk : id -> nat -> T (RN st eps)) (gs m : R) (o : obj (RN st eps)), 0 < m ->
    construct (num:=RN st eps) junk (q_cls x) (if existsb (fun b => b) (q_quark x) then [gs; m] else [gs]) = (Ok tt, o) ->
  forall q1 q2 q3 q4 : vec4 R,
    (forall k, (k < 4)%nat -> on_shell (if nth k (q_quark x) false then m else 0) (nth k [q1; q2; q3; q4] q4) /\ 0 <= v_0 (nth k [q1; q2; q3; q4] q4)) ->
    vadd q1 q2 = vadd q3 q4 -> 0 < minksq (vadd q1 q2) -> gram3 q1 q2 q3 <> 0 ->
  forall h rs, forallb no_setter h = true -> forallb reading rs = true ->
    let s := callm (num:=RN st eps) junk (q_cls x) n_set_momenta
      [GMom (num:=RN st eps) q1; GMom (num:=RN st eps) q2; GMom (num:=RN st eps) q3; GMom (num:=RN st eps) q4] (snd (orun (num:=RN st eps) junk (q_cls x) h o)) in
    fst s = Ok None /\
    fst (callm (num:=RN st eps) junk (q_cls x) n_amp2 [] (snd (orun (num:=RN st eps) junk (q_cls x) rs (snd s)))) =
      Ok (Some (RtT (num:=RN st eps) (gs ^ 4 * q_formula x m (minksq (vadd q1 q2)) (minksq (vsub q1 q3)) (minksq (vsub q1 q4))))).
Proof.
  intros x Hx st eps Heps junk gs m o Hm EC q1 q2 q3 q4 HS HC H0 HG h rs Hno Hrs.
  destruct Hx as [<-|[<-|[<-|[<-|[<-|[]]]]]]; cbn [existsb q_quark orb] in EC.
  - refine (textbook st eps Heps (mkQcd ggdd [false; false; true; true] (fun m s t u => gg_QQ m s t u)) (fst (qe 0)) (snd (qe 0)) junk [gs; m] gs m o
      (qe_in 0 ltac:(lia)) eq_refl EC ltac:(four) ltac:(four) eq_refl eq_refl (conj eq_refl (conj eq_refl eq_refl)) Hm q1 q2 q3 q4 _ ltac:(discriminate) HS HC H0 HG h rs Hno Hrs).
    intros mu D M SUM. masses M. products D. pose proof (chan_dots q1 q2 q3 q4) as CD. destruct CD as (C0 & C1 & C2).
    cbn [q_cls q_formula]. replace (INR (average ggdd [])) with 256 by (rewrite INR_IZR_INZ; reflexivity).
    change ((6 / ((minksq (chan q1 q2 q3 q4 0) - 0) * (minksq (chan q1 q2 q3 q4 1) - m * m)) ^ 2 + 6 / ((minksq (chan q1 q2 q3 q4 0) - 0) * (minksq (chan q1 q2 q3 q4 2) - m * m)) ^ 2 - 2 / 3 / ((minksq (chan q1 q2 q3 q4 1) - m * m) * (minksq (chan q1 q2 q3 q4 2) - m * m)) ^ 2) * (8 * (gs * gs * (gs * gs)) * (1 * ((minksq (chan q1 q2 q3 q4 1) - m * m) * (minksq (chan q1 q2 q3 q4 2) - m * m) * ((minksq (chan q1 q2 q3 q4 1) - m * m) * (minksq (chan q1 q2 q3 q4 1) - m * m) + (minksq (chan q1 q2 q3 q4 2) - m * m) * (minksq (chan q1 q2 q3 q4 2) - m * m)) + -4 * (m * m * ((minksq (chan q1 q2 q3 q4 1) - m * m) * (minksq (chan q1 q2 q3 q4 2) - m * m) * ((minksq (chan q1 q2 q3 q4 1) - m * m) + (minksq (chan q1 q2 q3 q4 2) - m * m)))) + -4 * (m * m * (m * m) * (((minksq (chan q1 q2 q3 q4 1) - m * m) + (minksq (chan q1 q2 q3 q4 2) - m * m)) * ((minksq (chan q1 q2 q3 q4 1) - m * m) + (minksq (chan q1 q2 q3 q4 2) - m * m))))))) = 256 * (gs ^ 4 * (fun m s t u => gg_QQ m s t u) m (minksq (chan q1 q2 q3 q4 0)) (minksq (chan q1 q2 q3 q4 1)) (minksq (chan q1 q2 q3 q4 2)))). cbv beta.
    rewrite Rminus_0_r, (alg_QQ 1 gs m (minksq (chan q1 q2 q3 q4 0)) (minksq (chan q1 q2 q3 q4 1)) (minksq (chan q1 q2 q3 q4 2))) by lra.
    rewrite Rmult_1_l. reflexivity.
  - refine (textbook st eps Heps (mkQcd gguu [false; false; true; true] (fun m s t u => gg_QQ m s t u)) (fst (qe 1)) (snd (qe 1)) junk [gs; m] gs m o
      (qe_in 1 ltac:(lia)) eq_refl EC ltac:(four) ltac:(four) eq_refl eq_refl (conj eq_refl (conj eq_refl eq_refl)) Hm q1 q2 q3 q4 _ ltac:(discriminate) HS HC H0 HG h rs Hno Hrs).
    intros mu D M SUM. masses M. products D. pose proof (chan_dots q1 q2 q3 q4) as CD. destruct CD as (C0 & C1 & C2).
    cbn [q_cls q_formula]. replace (INR (average gguu [])) with 256 by (rewrite INR_IZR_INZ; reflexivity).
    change ((6 / ((minksq (chan q1 q2 q3 q4 0) - 0) * (minksq (chan q1 q2 q3 q4 1) - m * m)) ^ 2 + 6 / ((minksq (chan q1 q2 q3 q4 0) - 0) * (minksq (chan q1 q2 q3 q4 2) - m * m)) ^ 2 - 2 / 3 / ((minksq (chan q1 q2 q3 q4 1) - m * m) * (minksq (chan q1 q2 q3 q4 2) - m * m)) ^ 2) * (8 * (gs * gs * (gs * gs)) * (1 * ((minksq (chan q1 q2 q3 q4 1) - m * m) * (minksq (chan q1 q2 q3 q4 2) - m * m) * ((minksq (chan q1 q2 q3 q4 1) - m * m) * (minksq (chan q1 q2 q3 q4 1) - m * m) + (minksq (chan q1 q2 q3 q4 2) - m * m) * (minksq (chan q1 q2 q3 q4 2) - m * m)) + -4 * (m * m * ((minksq (chan q1 q2 q3 q4 1) - m * m) * (minksq (chan q1 q2 q3 q4 2) - m * m) * ((minksq (chan q1 q2 q3 q4 1) - m * m) + (minksq (chan q1 q2 q3 q4 2) - m * m)))) + -4 * (m * m * (m * m) * (((minksq (chan q1 q2 q3 q4 1) - m * m) + (minksq (chan q1 q2 q3 q4 2) - m * m)) * ((minksq (chan q1 q2 q3 q4 1) - m * m) + (minksq (chan q1 q2 q3 q4 2) - m * m))))))) = 256 * (gs ^ 4 * (fun m s t u => gg_QQ m s t u) m (minksq (chan q1 q2 q3 q4 0)) (minksq (chan q1 q2 q3 q4 1)) (minksq (chan q1 q2 q3 q4 2)))). cbv beta.
    rewrite Rminus_0_r, (alg_QQ 1 gs m (minksq (chan q1 q2 q3 q4 0)) (minksq (chan q1 q2 q3 q4 1)) (minksq (chan q1 q2 q3 q4 2))) by lra.
    rewrite Rmult_1_l. reflexivity.
  - refine (textbook st eps Heps (mkQcd gugu [false; true; false; true] (fun m s t u => - (8 / 3) * gg_QQ m t s u)) (fst (qe 2)) (snd (qe 2)) junk [gs; m] gs m o
      (qe_in 2 ltac:(lia)) eq_refl EC ltac:(four) ltac:(four) eq_refl eq_refl (conj eq_refl (conj eq_refl eq_refl)) Hm q1 q2 q3 q4 _ ltac:(discriminate) HS HC H0 HG h rs Hno Hrs).
    intros mu D M SUM. masses M. products D. pose proof (chan_dots q1 q2 q3 q4) as CD. destruct CD as (C0 & C1 & C2).
    cbn [q_cls q_formula]. replace (INR (average gugu [])) with 96 by (rewrite INR_IZR_INZ; reflexivity).
    change ((6 / ((minksq (chan q1 q2 q3 q4 1) - 0) * (minksq (chan q1 q2 q3 q4 2) - m * m)) ^ 2 + 6 / ((minksq (chan q1 q2 q3 q4 1) - 0) * (minksq (chan q1 q2 q3 q4 0) - m * m)) ^ 2 - 2 / 3 / ((minksq (chan q1 q2 q3 q4 2) - m * m) * (minksq (chan q1 q2 q3 q4 0) - m * m)) ^ 2) * (8 * (gs * gs * (gs * gs)) * ((-1) * ((minksq (chan q1 q2 q3 q4 2) - m * m) * (minksq (chan q1 q2 q3 q4 0) - m * m) * ((minksq (chan q1 q2 q3 q4 2) - m * m) * (minksq (chan q1 q2 q3 q4 2) - m * m) + (minksq (chan q1 q2 q3 q4 0) - m * m) * (minksq (chan q1 q2 q3 q4 0) - m * m)) + -4 * (m * m * ((minksq (chan q1 q2 q3 q4 2) - m * m) * (minksq (chan q1 q2 q3 q4 0) - m * m) * ((minksq (chan q1 q2 q3 q4 2) - m * m) + (minksq (chan q1 q2 q3 q4 0) - m * m)))) + -4 * (m * m * (m * m) * (((minksq (chan q1 q2 q3 q4 2) - m * m) + (minksq (chan q1 q2 q3 q4 0) - m * m)) * ((minksq (chan q1 q2 q3 q4 2) - m * m) + (minksq (chan q1 q2 q3 q4 0) - m * m))))))) = 96 * (gs ^ 4 * (fun m s t u => - (8 / 3) * gg_QQ m t s u) m (minksq (chan q1 q2 q3 q4 0)) (minksq (chan q1 q2 q3 q4 1)) (minksq (chan q1 q2 q3 q4 2)))). cbv beta.
    rewrite Rminus_0_r, (alg_QQ (-1) gs m (minksq (chan q1 q2 q3 q4 1)) (minksq (chan q1 q2 q3 q4 2)) (minksq (chan q1 q2 q3 q4 0))) by lra.
    rewrite (gg_QQ_sym m (minksq (chan q1 q2 q3 q4 1)) (minksq (chan q1 q2 q3 q4 2)) (minksq (chan q1 q2 q3 q4 0))) by (cbn [pow]; lra). field.
  - refine (textbook st eps Heps (mkQcd dggd [true; false; false; true] (fun m s t u => - (8 / 3) * gg_QQ m u s t)) (fst (qe 3)) (snd (qe 3)) junk [gs; m] gs m o
      (qe_in 3 ltac:(lia)) eq_refl EC ltac:(four) ltac:(four) eq_refl eq_refl (conj eq_refl (conj eq_refl eq_refl)) Hm q1 q2 q3 q4 _ ltac:(discriminate) HS HC H0 HG h rs Hno Hrs).
    intros mu D M SUM. masses M. products D. pose proof (chan_dots q1 q2 q3 q4) as CD. destruct CD as (C0 & C1 & C2).
    cbn [q_cls q_formula]. replace (INR (average dggd [])) with 96 by (rewrite INR_IZR_INZ; reflexivity).
    change ((6 / ((minksq (chan q1 q2 q3 q4 2) - 0) * (minksq (chan q1 q2 q3 q4 1) - m * m)) ^ 2 + 6 / ((minksq (chan q1 q2 q3 q4 2) - 0) * (minksq (chan q1 q2 q3 q4 0) - m * m)) ^ 2 - 2 / 3 / ((minksq (chan q1 q2 q3 q4 1) - m * m) * (minksq (chan q1 q2 q3 q4 0) - m * m)) ^ 2) * (8 * (gs * gs * (gs * gs)) * ((-1) * ((minksq (chan q1 q2 q3 q4 1) - m * m) * (minksq (chan q1 q2 q3 q4 0) - m * m) * ((minksq (chan q1 q2 q3 q4 1) - m * m) * (minksq (chan q1 q2 q3 q4 1) - m * m) + (minksq (chan q1 q2 q3 q4 0) - m * m) * (minksq (chan q1 q2 q3 q4 0) - m * m)) + -4 * (m * m * ((minksq (chan q1 q2 q3 q4 1) - m * m) * (minksq (chan q1 q2 q3 q4 0) - m * m) * ((minksq (chan q1 q2 q3 q4 1) - m * m) + (minksq (chan q1 q2 q3 q4 0) - m * m)))) + -4 * (m * m * (m * m) * (((minksq (chan q1 q2 q3 q4 1) - m * m) + (minksq (chan q1 q2 q3 q4 0) - m * m)) * ((minksq (chan q1 q2 q3 q4 1) - m * m) + (minksq (chan q1 q2 q3 q4 0) - m * m))))))) = 96 * (gs ^ 4 * (fun m s t u => - (8 / 3) * gg_QQ m u s t) m (minksq (chan q1 q2 q3 q4 0)) (minksq (chan q1 q2 q3 q4 1)) (minksq (chan q1 q2 q3 q4 2)))). cbv beta.
    destruct (across q1 q2 q3 q4 HC) as (_ & AC). pose proof (D 1%nat 2%nat ltac:(lia)) as D12. cbn [nth] in D12.
    rewrite Rminus_0_r, (alg_QQ (-1) gs m (minksq (chan q1 q2 q3 q4 2)) (minksq (chan q1 q2 q3 q4 1)) (minksq (chan q1 q2 q3 q4 0))) by lra.
    rewrite (gg_QQ_sym m (minksq (chan q1 q2 q3 q4 2)) (minksq (chan q1 q2 q3 q4 1)) (minksq (chan q1 q2 q3 q4 0))) by (cbn [pow]; lra). field.
  - refine (textbook st eps Heps (mkQcd gggg [false; false; false; false] (fun _ s t u => gg_gg s t u / 2)) (fst (qe 4)) (snd (qe 4)) junk [gs] gs m o
      (qe_in 4 ltac:(lia)) eq_refl EC ltac:(four) ltac:(four) eq_refl eq_refl (conj eq_refl (conj eq_refl eq_refl)) Hm q1 q2 q3 q4 _ ltac:(discriminate) HS HC H0 HG h rs Hno Hrs).
    intros mu D M SUM. masses M. products D. pose proof (chan_dots q1 q2 q3 q4) as CD. destruct CD as (C0 & C1 & C2).
    cbn [q_cls q_formula]. replace (INR (average gggg [])) with 512 by (rewrite INR_IZR_INZ; reflexivity).
    change ((36 / ((minksq (chan q1 q2 q3 q4 0) - 0 * 0) * (minksq (chan q1 q2 q3 q4 1) - 0 * 0)) ^ 2 + 36 / ((minksq (chan q1 q2 q3 q4 0) - 0 * 0) * (minksq (chan q1 q2 q3 q4 2) - 0)) ^ 2 + 36 / ((minksq (chan q1 q2 q3 q4 1) - 0 * 0) * (minksq (chan q1 q2 q3 q4 2) - 0)) ^ 2) * (8 * (gs * gs * (gs * gs)) * ((minksq (chan q1 q2 q3 q4 0) - 0 * 0) * (minksq (chan q1 q2 q3 q4 0) - 0 * 0) * ((minksq (chan q1 q2 q3 q4 0) - 0 * 0) * (minksq (chan q1 q2 q3 q4 0) - 0 * 0)) + ((minksq (chan q1 q2 q3 q4 1) - 0 * 0) * (minksq (chan q1 q2 q3 q4 1) - 0 * 0) * ((minksq (chan q1 q2 q3 q4 1) - 0 * 0) * (minksq (chan q1 q2 q3 q4 1) - 0 * 0)) + minksq (chan q1 q2 q3 q4 2) * minksq (chan q1 q2 q3 q4 2) * (minksq (chan q1 q2 q3 q4 2) * minksq (chan q1 q2 q3 q4 2))))) = 512 * (gs ^ 4 * (fun _ s t u => gg_gg s t u / 2) m (minksq (chan q1 q2 q3 q4 0)) (minksq (chan q1 q2 q3 q4 1)) (minksq (chan q1 q2 q3 q4 2)))). cbv beta.
    rewrite !Rmult_0_l, !Rminus_0_r. rewrite (alg_gg gs (minksq (chan q1 q2 q3 q4 0)) (minksq (chan q1 q2 q3 q4 1)) (minksq (chan q1 q2 q3 q4 2))) by lra. reflexivity.
Qed.
Print Assumptions C58_textbook_gluons.

(** ** amp2_Feynman: the formulas typed into the code *)
Definition fterm (g : gluons) : sT :=
  let gs := TAt (AMem n_gs) in let S := sden g 0 in let T := sden g 1 in let U := sden g 2 in
  if all_gluons g then
    let pre := TOp Mul (TOp Mul (TOp Mul (TOp Mul (TofD (DOp Div (DLit 9) (DLit 4))) gs) gs) gs) gs in
    let sub x y z := TOp Div (TOp Div (TOp Mul x y) z) z in
    TAbs (CMk (TOp Mul pre (TOp Sub (TOp Sub (TOp Sub (TofD (DLit 3)) (sub T U S)) (sub S U T)) (sub S T U))) (TInt 0))
  else
    let pre := TOp Mul (TOp Mul (TOp Mul gs gs) gs) gs in
    TAbs (CMk (TOp Mul (TOp Mul pre (TOp Add (TOp Mul T T) (TOp Mul U U)))
       (TOp Sub (TOp Div (TOp Div (TofD (DOp Div (DLit 1) (DLit 6))) T) U) (TOp Div (TOp Div (TofD (DOp Div (DLit 3) (DLit 8))) S) S))) (TInt 0)).
Definition is_fterm (x : gluons * cls) : bool :=
  let (g, c) := x in
  match shape c with
  | POk b =>
      known (dyn_mask c) b n_gs && match b_T b n_gs with Some (TAt (APar 0)) => true | _ => false end &&
      forallb (fun pat => match after c (dyn_mask c) b pat with
        | POk (None, b1) => match summed c pat n_amp2_Feynman b1 with POk (Some (RtT t), _) => eqT t (fterm g) | _ => false end
        | _ => false end) all_pats
  | _ => false end.
Definition typed : list (gluons * cls) := let g i := fst (qe i) in [(g 0%nat, ggdd); (g 1%nat, gguu); (g 4%nat, gggg)].
Lemma typed_checked : forallb is_fterm typed = true.
Proof. vm_cast_no_check (eq_refl true). Qed.
Lemma typed_gluons : forall g c, In (g, c) typed -> In g gluon_processes /\ In c sm_classes /\ c_name c = g_name g /\ (g_q g < 4)%nat.
Proof.
  intros g c [H|[H|[H|[]]]]; apply pinj in H as [<- <-].
  - split; [apply in_eq|]. split; [unfold sm_classes; rewrite !in_app_iff; cbn; tauto|]. split; [reflexivity|cbn; lia].
  - split; [do 1 apply in_cons; apply in_eq|]. split; [unfold sm_classes; rewrite !in_app_iff; cbn; tauto|]. split; [reflexivity|cbn; lia].
  - split; [do 4 apply in_cons; apply in_eq|]. split; [unfold sm_classes; rewrite !in_app_iff; cbn; tauto|]. split; [reflexivity|cbn; lia].
Qed.

Section Typed.
  Variables (st : bool) (eps : R).
  Notation num := (RN st eps).
  Variables (g : gluons) (c : cls).
  Hypothesis Hgc : In (g, c) typed.
  Variables (junk : id -> nat -> T num) (params : list R) (o : obj num).
  Hypothesis EC : construct (num:=num) junk c params = (Ok tt, o).
  Variable m : R.
  Hypothesis Hm : leg_mass (num:=num) o (g_q g) m.
  Variables q1 q2 q3 q4 : vec4 R.
  Notation d := (gden g m q1 q2 q3 q4).
  Definition fvalue : R :=
    let gs := given params 0%nat in
    if all_gluons g then 9 / 4 * gs * gs * gs * gs * (3 - d 1%nat * d 2%nat / d 0%nat / d 0%nat - d 0%nat * d 2%nat / d 1%nat / d 1%nat - d 0%nat * d 1%nat / d 2%nat / d 2%nat)
    else gs * gs * gs * gs * (d 1%nat * d 1%nat + d 2%nat * d 2%nat) * (1 / 6 / d 1%nat / d 2%nat - 3 / 8 / d 0%nat / d 0%nat).
  Lemma typed_value h rs : forallb no_setter h = true -> forallb reading rs = true ->
    isOk (fst (callm (num:=num) junk c n_set_momenta [GMom (num:=num) q1; GMom (num:=num) q2; GMom (num:=num) q3; GMom (num:=num) q4] o)) = true ->
    let s := callm (num:=num) junk c n_set_momenta [GMom (num:=num) q1; GMom (num:=num) q2; GMom (num:=num) q3; GMom (num:=num) q4] (snd (orun (num:=num) junk c h o)) in
    isOk (fst s) = true ->
    forall r, fst (callm (num:=num) junk c n_amp2_Feynman [] (snd (orun (num:=num) junk c rs (snd s)))) = Ok r -> r = Some (RtT (num:=num) (Rabs fvalue)).
  Proof.
    intros Hh Hrs HOk s HOk' r0 Hr. destruct (typed_gluons g c Hgc) as (Hg & Hc & Hn & Hq).
    pose proof (proj1 (forallb_forall _ _) typed_checked _ Hgc) as K. unfold is_fterm in K.
    assert (HR : reached (num:=num) junk c o) by exact (reached_new (num:=num) junk c _ o EC).
    destruct (pair_state (num:=num) junk c o h [q1; q2; q3; q4] [q1; q2; q3; q4] rs rs Hc (polar_real st eps) HR Hh eq_refl eq_refl HOk HOk' Hrs Hrs)
      as (b & pat & b1 & rT & rT' & EB & HI & EA & _ & R1 & R2 & _ & _ & R8 & R9 & _ & _ & _ & HQ).
    rewrite EB in K. apply andb_prop in K as [K K3]. apply andb_prop in K as [K1 K2].
    pose proof (proj1 (forallb_forall _ _) K3 pat HI) as K4. cbv beta in K4. rewrite EA in K4. clear K3.
    destruct (construct_shape junk c params o b EC EB) as (D & HO).
    assert (GS : rT' (AMem n_gs) = given params 0%nat).
    { rewrite <- (R2 (AMem n_gs) I). destruct (b_T b n_gs) as [y|] eqn:ET; [|discriminate K2]. destruct (or_T _ _ _ _ _ _ _ HO _ y ET) as (w & W1 & W2).
      pose proof (R9 n_gs K1) as X. rewrite W1 in X. injection X as X. unfold RTs in W2. rewrite <- X, W2.
      destruct y as [| | | | | |a| | |]; try discriminate K2. destruct a; try discriminate K2. match goal with H : match ?k with O => _ | S _ => _ end = true |- _ => destruct k; [reflexivity|discriminate H] end. }
    destruct (gcheck_c g c Hg Hc Hn) as (_ & _ & HMs). unfold gmasses in HMs. apply andb_prop in HMs as [HMs _]. apply andb_prop in HMs as [A1 A2].
    pose proof (agree_ok junk c o _ _ Hc A1 HR) as M1. pose proof (agree_ok junk c o _ _ Hc A2 HR) as M2.
    assert (Hmm : omass o (g_q g) = m).
    { destruct Hm as (P & P1 & P2). unfold omass. rewrite P1. unfold mass in P2. destruct (pa_m P) as [v0|v0]; cbn in P2 |- *; destruct st; congruence. }
    assert (P1 : rT' (APm (g_propg g)) = 0).
    { rewrite <- (R2 (APm (g_propg g)) I), (proj1 (R8 (g_propg g) (agree_prop c b _ _ EB A1))). exact M1. }
    assert (P2 : rT' (APm (g_prop g)) = m).
    { rewrite <- (R2 (APm (g_prop g)) I), (proj1 (R8 (g_prop g) (agree_prop c b _ _ EB A2))). etransitivity; [exact M2|exact Hmm]. }
    set (o2 := snd (orun (num:=num) junk c rs (snd s))) in *. set (M := amp_of junk c o2). destruct (HQ M) as (HQ1 & HO1).
    change (snd (orun (num:=num) junk c rs (snd (callm (num:=num) junk c n_set_momenta (map (GMom (num:=num)) [q1; q2; q3; q4]) (snd (orun (num:=num) junk c h o)))))) with o2 in HO1.
    pose proof (summed_ref junk c pat b1 o2 rT' HQ1 HO1 n_amp2_Feynman) as K.
    destruct (callm junk c n_amp2_Feynman [] o2) as [r1 o3]. cbn [fst] in Hr. subst r1.
    destruct (summed c pat n_amp2_Feynman b1) as [|e|p]; [discriminate K4|discriminate K4|].
    destruct p as [r b2]. unfold REF in K. destruct r as [[t|y]|]; try discriminate K4. cbn [fst ret_rel] in K.
    destruct r0 as [[x|x]|]; try contradiction K.
    apply eqT_eq in K4. subst t. do 2 f_equal. unfold RTs in K. rewrite K.
    pose proof (fun k Hk => sden_val st eps g rT' M q1 q2 q3 q4 m k Hk R1 P1 P2) as HD.
    pose proof (HD 0%nat ltac:(lia)) as D0. pose proof (HD 1%nat ltac:(lia)) as D1. pose proof (HD 2%nat ltac:(lia)) as D2. clear HD K.
    assert (HA : forall y, denT (num:=num) rT' M (TAbs (CMk y (TInt 0))) = Rabs (denT (num:=num) rT' M y)).
    { intros y. change (Cmod (denT (num:=num) rT' M y, 0) = Rabs (denT (num:=num) rT' M y)). exact (Cmod_R (denT (num:=num) rT' M y)). }
    assert (L94 : denD (num:=num) (DOp Div (DLit 9) (DLit 4)) = 9 / 4) by (change (Q2R (9 # 1) / Q2R (4 # 1) = 9 / 4); rewrite !Q2R_int; reflexivity).
    assert (L16 : denD (num:=num) (DOp Div (DLit 1) (DLit 6)) = 1 / 6) by (change (Q2R (1 # 1) / Q2R (6 # 1) = 1 / 6); rewrite !Q2R_int; reflexivity).
    assert (L38 : denD (num:=num) (DOp Div (DLit 3) (DLit 8)) = 3 / 8) by (change (Q2R (3 # 1) / Q2R (8 # 1) = 3 / 8); rewrite !Q2R_int; reflexivity).
    assert (L3 : denD (num:=num) (DLit 3) = 3) by exact (Q2R_int 3).
    unfold fterm, fvalue. cbv zeta. destruct (all_gluons g); rewrite HA; f_equal.
    - set (x0 := sden g 0) in *. set (x1 := sden g 1) in *. set (x2 := sden g 2) in *. clearbody x0 x1 x2.
      change (denD (num:=num) (DOp Div (DLit 9) (DLit 4)) * rT' (AMem n_gs) * rT' (AMem n_gs) * rT' (AMem n_gs) * rT' (AMem n_gs) *
        (denD (num:=num) (DLit 3) - denT rT' M x1 * denT rT' M x2 / denT rT' M x0 / denT rT' M x0 - denT rT' M x0 * denT rT' M x2 / denT rT' M x1 / denT rT' M x1 - denT rT' M x0 * denT rT' M x1 / denT rT' M x2 / denT rT' M x2)
        = 9 / 4 * given params 0%nat * given params 0%nat * given params 0%nat * given params 0%nat * (3 - d 1%nat * d 2%nat / d 0%nat / d 0%nat - d 0%nat * d 2%nat / d 1%nat / d 1%nat - d 0%nat * d 1%nat / d 2%nat / d 2%nat)).
      rewrite D0, D1, D2, GS, L94, L3. reflexivity.
    - set (x0 := sden g 0) in *. set (x1 := sden g 1) in *. set (x2 := sden g 2) in *. clearbody x0 x1 x2.
      change (rT' (AMem n_gs) * rT' (AMem n_gs) * rT' (AMem n_gs) * rT' (AMem n_gs) * (denT rT' M x1 * denT rT' M x1 + denT rT' M x2 * denT rT' M x2) *
        (denD (num:=num) (DOp Div (DLit 1) (DLit 6)) / denT rT' M x1 / denT rT' M x2 - denD (num:=num) (DOp Div (DLit 3) (DLit 8)) / denT rT' M x0 / denT rT' M x0)
        = given params 0%nat * given params 0%nat * given params 0%nat * given params 0%nat * (d 1%nat * d 1%nat + d 2%nat * d 2%nat) * (1 / 6 / d 1%nat / d 2%nat - 3 / 8 / d 0%nat / d 0%nat)).
      rewrite D0, D1, D2, GS, L16, L38. reflexivity.
  Qed.
End Typed.

(** the products of the momenta and their Gram determinant *)
Lemma positives (st : bool) (eps : R) P t (q : nat -> vec4 R) : (forall k, 0 <= pmass P (t k)) ->
  (forall k, (k < 4)%nat -> on_shell (pmass P (t k)) (q k) /\ 0 <= v_0 (q k)) ->
  vadd (q 0%nat) (q 1%nat) = vadd (q 2%nat) (q 3%nat) -> 0 < minksq (vadd (q 0%nat) (q 1%nat)) -> gram3 (q 0%nat) (q 1%nat) (q 2%nat) <> 0 ->
  (forall a b, (a < b < 4)%nat -> 0 < minkdot (q a) (q b)) /\ 0 < gram3 (q 0%nat) (q 1%nat) (q 2%nat).
Proof.
  intros HM HS HC Hs HG. destruct (cm_frame st eps P t q HS HC Hs HG) as (L & F & HD & Hin & Hout & Hc' & Hs' & Hu & HE & HV).
  assert (DOT : forall a b, (a < 4)%nat -> (b < 4)%nat -> minkdot (q a) (q b) = minkdot (cm_q P t F a) (cm_q P t F b)).
  { intros a b Ha Hb. exact (moved_dot st eps L HD _ _ _ _ (HV a Ha) (HV b Hb)). }
  split; [intros a b Hab; rewrite DOT by lia; apply cm_dot; assumption|].
  assert (E : gram3 (q 0%nat) (q 1%nat) (q 2%nat) = gram3 (cm_q P t F 0) (cm_q P t F 1) (cm_q P t F 2)) by (unfold gram3; rewrite !DOT by lia; reflexivity).
  assert (E2 : gram3 (cm_q P t F 0) (cm_q P t F 1) (cm_q P t F 2) =
    (f_out F * (2 * f_c F * f_s F)) * (f_out F * (2 * f_c F * f_s F)) * (f_in F * f_in F) * ((cm_energy P t F 0 + cm_energy P t F 1) * (cm_energy P t F 0 + cm_energy P t F 1))).
  { unfold gram3, minkdot, cm_q, cm_mom. change (cm_p F 0) with (f_in F). change (cm_p F 1) with (f_in F). change (cm_p F 2) with (f_out F). cbn [v_0 v_1 v_2 v_3 cm_c cm_s]. ring. }
  assert (0 <= gram3 (q 0%nat) (q 1%nat) (q 2%nat)); [|lra].
  rewrite E, E2. repeat apply Rmult_le_pos; try apply Rle_0_sqr; try (apply Rlt_le; repeat apply Rmult_lt_0_compat; lra); try apply Rplus_le_le_0_compat; try apply sqrt_pos; lra.
Qed.
Lemma gg_QQ_massless m s t u : 0 < s -> 0 < m ^ 2 - t -> 0 < m ^ 2 - u -> s = (m ^ 2 - t) + (m ^ 2 - u) -> 0 <= gg_QQ 0 s (t - m ^ 2) (u - m ^ 2).
Proof.
  intros S A B E. unfold gg_QQ. cbv zeta. replace (0 ^ 2 - (t - m ^ 2)) with (m ^ 2 - t) by ring. replace (0 ^ 2 - (u - m ^ 2)) with (m ^ 2 - u) by ring.
  set (a := m ^ 2 - t) in *. set (b := m ^ 2 - u) in *. clearbody a b. subst s.
  replace ((1 / (6 * (a / (a + b)) * (b / (a + b))) - 3 / 8) * ((a / (a + b)) ^ 2 + (b / (a + b)) ^ 2 + 4 * 0 ^ 2 / (a + b) - (4 * 0 ^ 2 / (a + b)) ^ 2 / (4 * (a / (a + b)) * (b / (a + b)))))
    with ((4 * (a + b) * (a + b) - 9 * a * b) * (a * a + b * b) * / (24 * a * b * ((a + b) * (a + b)))) by (field; lra).
  apply Rmult_le_pos; [apply Rmult_le_pos; nra|]. apply Rlt_le, Rinv_0_lt_compat. assert (0 < a * b) by (apply Rmult_lt_0_compat; lra). assert (0 < (a + b) * (a + b)) by (apply Rmult_lt_0_compat; lra). nra.
Qed.
Lemma gg_QQ_above m s t u : 0 < m -> 0 < s -> 0 < m ^ 2 - t -> 0 < m ^ 2 - u -> s = (m ^ 2 - t) + (m ^ 2 - u) -> 0 < (m ^ 2 - t) * (m ^ 2 - u) - s * m ^ 2 ->
  gg_QQ 0 s (t - m ^ 2) (u - m ^ 2) < gg_QQ m s t u.
Proof.
  intros M S A B E G. unfold gg_QQ. cbv zeta. replace (0 ^ 2 - (t - m ^ 2)) with (m ^ 2 - t) by ring. replace (0 ^ 2 - (u - m ^ 2)) with (m ^ 2 - u) by ring.
  set (a := m ^ 2 - t) in *. set (b := m ^ 2 - u) in *. clearbody a b. subst s.
  assert (AB : 0 < a * b) by (apply Rmult_lt_0_compat; lra). assert (SS : 0 < (a + b) * (a + b)) by (apply Rmult_lt_0_compat; lra).
  apply Rminus_gt_0_lt. match goal with |- 0 < ?x => replace x with (m ^ 2 * (4 * (a + b) * (a + b) - 9 * a * b) * (a * b - (a + b) * m ^ 2) * / (6 * (a * b) * (a * b) * (a + b))) by (field; lra) end.
  apply Rmult_lt_0_compat; [|apply Rinv_0_lt_compat; repeat apply Rmult_lt_0_compat; lra].
  apply Rmult_lt_0_compat; [|lra]. apply Rmult_lt_0_compat; [|nra]. apply pow_lt. exact M.
Qed.
Lemma gg_gg_pos s t u : s <> 0 -> t <> 0 -> u <> 0 -> s + t + u = 0 -> 0 <= gg_gg s t u / 2.
Proof.
  intros S T U E. pose proof (alg_gg 1 s t u S T U E) as K.
  assert (0 <= 512 * (1 ^ 4 * (gg_gg s t u / 2))); [|lra]. rewrite <- K.
  assert (X : forall a b, a <> 0 -> b <> 0 -> 0 <= 36 / (a * b) ^ 2).
  { intros a b Ha Hb. apply Rmult_le_pos; [lra|]. apply Rlt_le, Rinv_0_lt_compat. cbn [pow]. rewrite Rmult_1_r. apply Rsqr_pos_lt. apply Rmult_integral_contrapositive_currified; assumption. }
  pose proof (X s t S T). pose proof (X s u S U). pose proof (X t u T U). apply Rmult_le_pos; [lra|]. pose proof (Rle_0_sqr (s * s)). pose proof (Rle_0_sqr (t * t)). pose proof (Rle_0_sqr (u * u)). unfold Rsqr in *. lra.
Qed.

Section Compare.
  Variables (st : bool) (eps : R).
  Notation num := (RN st eps).
  Hypothesis Heps : 0 <= eps.
  Variables (x : qcd) (g : gluons) (e : bentry) (junk : id -> nat -> T num) (params : list R) (gs m : R) (o : obj num).
  Hypothesis Hgc : In (g, q_cls x) typed.
  Notation c := (q_cls x).
  Notation P := (b_model e (given params)).
  Hypothesis EC : construct (num:=num) junk c params = (Ok tt, o).
  Hypothesis He : In (g, e) qcd_entries.
  Hypothesis EQ : b_cls e = q_cls x.
  Hypothesis EM : forall k, (k < 4)%nat -> pmass P (ts e k) = if nth k (q_quark x) false then m else 0.
  Hypothesis EH : forall k, (k < 4)%nat -> heavy (ts e k) = nth k (q_quark x) false.
  Hypothesis EW : weakly (q_cls x) = false.
  Hypothesis EZ : b_zero e = [].
  Hypothesis ED : par (q_cls x) (given params) n_widthW = 0 /\ par (q_cls x) (given params) n_widthZ = 0 /\ par (q_cls x) (given params) n_widthh = 0.
  Hypothesis HA : argless c n_amp2_Feynman.
  Hypothesis Hm : 0 < m.
  Variables q1 q2 q3 q4 : vec4 R.
  Hypothesis HS : forall k, (k < 4)%nat -> on_shell (if nth k (q_quark x) false then m else 0) (nth k [q1; q2; q3; q4] q4) /\ 0 <= v_0 (nth k [q1; q2; q3; q4] q4).
  Hypothesis HC : vadd q1 q2 = vadd q3 q4.
  Hypothesis H0 : 0 < minksq (vadd q1 q2).
  Hypothesis HG : gram3 q1 q2 q3 <> 0.
  Lemma all_positive : (forall a b, (a < b < 4)%nat -> 0 < minkdot (nth a [q1; q2; q3; q4] q4) (nth b [q1; q2; q3; q4] q4)) /\ 0 < gram3 q1 q2 q3.
  Proof.
    pose proof (proj1 (forallb_forall _ _) qcd_checked _ He) as BC. cbn [snd] in BC.
    apply (positives st eps P (ts e) (fun k => nth k [q1; q2; q3; q4] q4)); try assumption.
    - apply (mass_nonneg e BC params). intros k Hk H. rewrite (EM k Hk), <- (EH k Hk), H. exact Hm.
    - intros k Hk. rewrite (EM k Hk). exact (HS k Hk).
  Qed.
  Lemma typed_ok h rs : forallb no_setter h = true -> forallb reading rs = true ->
    let s := callm (num:=num) junk c n_set_momenta [GMom (num:=num) q1; GMom (num:=num) q2; GMom (num:=num) q3; GMom (num:=num) q4] (snd (orun (num:=num) junk c h o)) in
    fst (callm (num:=num) junk c n_amp2_Feynman [] (snd (orun (num:=num) junk c rs (snd s)))) = Ok (Some (RtT (num:=num) (Rabs (fvalue g params (if nth (g_q g) (q_quark x) false then m else 0) q1 q2 q3 q4)))).
  Proof.
    intros Hno Hrs s. destruct (typed_gluons g c Hgc) as (Hg & Hc & Hn & Hq). pose proof (proj1 (forallb_forall _ _) qcd_checked _ He) as BC. cbn [snd] in BC.
    assert (HH : forall k, (k < 4)%nat -> heavy (ts e k) = true -> 0 < pmass P (ts e k)) by (intros k Hk H; rewrite (EM k Hk), <- (EH k Hk), H; exact Hm).
    assert (HR : reached (num:=num) junk c o) by exact (reached_new (num:=num) junk c _ o EC).
    assert (HR' : reached (num:=num) junk c (snd (orun (num:=num) junk c h o))) by (apply reached_history; assumption).
    pose proof (qcd_sm g e He) as Hc0.
    destruct (cm_frame st eps P (ts e) (fun k => nth k [q1; q2; q3; q4] q4) ltac:(intros k Hk; rewrite (EM k Hk); exact (HS k Hk)) HC H0 HG) as (L & F & HD & Hin & Hout & Hc' & Hs' & Hu & HE & HV).
    assert (EC0 : construct (num:=num) junk (b_cls e) params = (Ok tt, o)) by (rewrite EQ; exact EC).
    assert (EW0 : weakly (b_cls e) = true -> 0 < sm_sw P < 1 /\ 0 < sm_mW P) by (rewrite EQ, EW; discriminate).
    assert (EZ0 : forall y, In y (b_zero e) -> par (b_cls e) (given params) y = 0) by (rewrite EZ; intros ? []).
    assert (ED0 : par (b_cls e) (given params) n_widthW = 0 /\ par (b_cls e) (given params) n_widthZ = 0 /\ par (b_cls e) (given params) n_widthh = 0) by (rewrite EQ; exact ED).
    assert (LH : forall k, (k < 4)%nat -> leg_mass (num:=num) o k (if nth k (q_quark x) false then m else 0)).
    { intros k Hk. assert (X : leg_mass (num:=num) o k (pmass P (ts e k))) by (pose proof (fun _ : b_narrow e = true => ED0); eapply leg_held_b; eassumption).
      rewrite (EM k Hk) in X. exact X. }
    pose proof (leg_zero_b e BC params HH) as LZ. rewrite EQ in LZ.
    assert (OK : forall o', reached (num:=num) junk c o' -> (forall k, (k < 4)%nat -> leg_mass (num:=num) o' k (if nth k (q_quark x) false then m else 0)) ->
      let s := callm (num:=num) junk c n_set_momenta [GMom (num:=num) q1; GMom (num:=num) q2; GMom (num:=num) q3; GMom (num:=num) q4] o' in
      fst s = Ok None /\ forall rs, forallb reading rs = true -> forall mm, argless c mm -> exists y, fst (callm (num:=num) junk c mm [] (snd (orun (num:=num) junk c rs (snd s)))) = Ok y).
    { intros o' HR0 LH0.
      assert (Z1 : forall p m', In (p, m') [(0%nat, if nth 0 (q_quark x) false then m else 0); (1%nat, if nth 1 (q_quark x) false then m else 0); (2%nat, if nth 2 (q_quark x) false then m else 0); (3%nat, if nth 3 (q_quark x) false then m else 0)] -> (leg c p = Some true -> m' = 0) /\ (leg c p = Some false -> m' <> 0)).
      { intros p m' Hp. rewrite <- !EM in Hp by lia. exact (LZ p m' Hp). }
      destruct (C45_no_exception_on_shell c Hc st eps Heps junk o' HR0 _ _ _ _ (LH0 0%nat ltac:(lia)) (LH0 1%nat ltac:(lia)) (LH0 2%nat ltac:(lia)) (LH0 3%nat ltac:(lia))
        (fun k m' H => proj1 (Z1 k m' H)) (fun k m' H => proj2 (Z1 k m' H)) q1 q2 q3 q4
        (proj1 (HS 0%nat ltac:(lia))) (proj1 (HS 1%nat ltac:(lia))) (proj1 (HS 2%nat ltac:(lia))) (proj1 (HS 3%nat ltac:(lia)))) as (X1 & X2).
      split; [exact X1|]. intros rs0 Hrs0 mm Hmm. destruct (X2 rs0 Hrs0 mm Hmm) as (y & Hy). eexists. exact Hy. }
    destruct (OK o HR LH) as (O1 & _). destruct (OK _ HR' ltac:(intros k Hk; apply legs_history; auto)) as (O2 & O3). fold s in O2, O3.
    destruct (O3 rs Hrs n_amp2_Feynman HA) as (y & Hy). rewrite Hy. f_equal.
    apply (typed_value st eps g c Hgc junk params o EC _ (LH _ Hq) q1 q2 q3 q4 h rs Hno Hrs); [rewrite O1; reflexivity|fold s; rewrite O2; reflexivity|exact Hy].
  Qed.
End Compare.

Lemma quark_typed gs m s t u : 0 < s -> 0 < m ^ 2 - t -> 0 < m ^ 2 - u -> s = (m ^ 2 - t) + (m ^ 2 - u) ->
  Rabs (gs * gs * gs * gs * ((t - m * m) * (t - m * m) + (u - m * m) * (u - m * m)) * (1 / 6 / (t - m * m) / (u - m * m) - 3 / 8 / (s - 0) / (s - 0))) = gs ^ 4 * gg_QQ 0 s (t - m ^ 2) (u - m ^ 2).
Proof.
  intros S A B E. pose proof (gg_QQ_massless m s t u S A B E) as N.
  assert (P4 : 0 <= gs ^ 4) by (replace (gs ^ 4) with ((gs * gs) * (gs * gs)) by ring; apply Rle_0_sqr).
  etransitivity; [|exact (Rabs_pos_eq _ (Rmult_le_pos _ _ P4 N))]. f_equal. unfold gg_QQ. cbv zeta.
  cbn [pow] in A, B. field. repeat split; lra.
Qed.
Lemma gluon_typed gs s t u : s <> 0 -> t <> 0 -> u <> 0 -> s + t + u = 0 ->
  Rabs (9 / 4 * gs * gs * gs * gs * (3 - (t - 0 * 0) * (u - 0) / (s - 0 * 0) / (s - 0 * 0) - (s - 0 * 0) * (u - 0) / (t - 0 * 0) / (t - 0 * 0) - (s - 0 * 0) * (t - 0 * 0) / (u - 0) / (u - 0))) = gs ^ 4 * (gg_gg s t u / 2).
Proof.
  intros S T U E. pose proof (gg_gg_pos s t u S T U E) as N.
  assert (P4 : 0 <= gs ^ 4) by (replace (gs ^ 4) with ((gs * gs) * (gs * gs)) by ring; apply Rle_0_sqr).
  etransitivity; [|exact (Rabs_pos_eq _ (Rmult_le_pos _ _ P4 N))]. f_equal. unfold gg_gg. field. repeat split; lra.
Qed.
Lemma quark_case gs m q1 q2 q3 q4 : 0 < m -> minksq q1 = 0 -> minksq q2 = 0 -> minksq q3 = m * m -> minksq q4 = m * m -> vadd q1 q2 = vadd q3 q4 ->
  0 < minkdot q1 q2 -> 0 < minkdot q1 q3 -> 0 < minkdot q1 q4 -> 0 < gram3 q1 q2 q3 ->
  let S := minksq (vadd q1 q2) in let T := minksq (vsub q1 q3) in let U := minksq (vsub q1 q4) in
  let y := Rabs (gs * gs * gs * gs * ((T - m * m) * (T - m * m) + (U - m * m) * (U - m * m)) * (1 / 6 / (T - m * m) / (U - m * m) - 3 / 8 / (S - 0) / (S - 0))) in
  y = gs ^ 4 * gg_QQ 0 S (T - m ^ 2) (U - m ^ 2) /\ (gs <> 0 -> y < gs ^ 4 * gg_QQ m S T U).
Proof.
  intros Hm M1 M2 M3 M4 HC D1 D2 D3 GR S T U y.
  destruct (chan_dots q1 q2 q3 q4) as (C0 & C1 & C2). pose proof (mandelstam q1 q2 q3 q4 HC) as SUM. fold S T U in SUM.
  change (S = minksq q1 + minksq q2 + 2 * minkdot q1 q2) in C0. change (T = minksq q1 + minksq q3 - 2 * minkdot q1 q3) in C1. change (U = minksq q1 + minksq q4 - 2 * minkdot q1 q4) in C2.
  destruct (across q1 q2 q3 q4 HC) as (_ & AC).
  assert (A0 : 0 < S) by lra. assert (A1 : 0 < m ^ 2 - T) by (cbn [pow]; lra). assert (A2 : 0 < m ^ 2 - U) by (cbn [pow]; lra). assert (A3 : S = (m ^ 2 - T) + (m ^ 2 - U)) by (cbn [pow]; lra).
  pose proof (quark_typed gs m S T U A0 A1 A2 A3) as Y. fold y in Y. split; [exact Y|]. intros Hg. rewrite Y.
  apply Rmult_lt_compat_l; [replace (gs ^ 4) with ((gs * gs) * (gs * gs)) by ring; apply Rsqr_pos_lt, Rmult_integral_contrapositive_currified; assumption|].
  apply gg_QQ_above; try assumption.
  assert (X : gram3 q1 q2 q3 = S / 4 * ((m ^ 2 - T) * (m ^ 2 - U) - S * m ^ 2)).
  { unfold gram3. change (minkdot q1 q1) with (minksq q1). change (minkdot q2 q2) with (minksq q2). change (minkdot q3 q3) with (minksq q3).
    replace (minkdot q1 q2) with (S / 2) by lra. replace (minkdot q1 q3) with ((m ^ 2 - T) / 2) by (cbn [pow]; lra). replace (minkdot q2 q3) with ((m ^ 2 - U) / 2) by (cbn [pow]; lra).
    rewrite M1, M2, M3. field. }
  rewrite X in GR. apply (Rmult_lt_reg_l (S / 4)); [lra|]. rewrite Rmult_0_r. exact GR.
Qed.

(** C59: amp2_Feynman of gggg returns what amp2 returns; of ggdd and gguu the formula of massless
    quarks, with t - m^2 for t and u - m^2 for u, always below amp2. *)
Theorem C59_amp2_Feynman :
  forall x, In x qcd_table -> argless (q_cls x) n_amp2_Feynman ->
  forall st eps, 0 <= eps ->
  forall (junk : id -> nat -> T (RN st eps)) (gs m : R) (o : obj (RN st eps)), 0 < m ->
    construct (num:=RN st eps) junk (q_cls x) (if existsb (fun b => b) (q_quark x) then [gs; m] else [gs]) = (Ok tt, o) ->
  forall q1 q2 q3 q4 : vec4 R,
    (forall k, (k < 4)%nat -> on_shell (if nth k (q_quark x) false then m else 0) (nth k [q1; q2; q3; q4] q4) /\ 0 <= v_0 (nth k [q1; q2; q3; q4] q4)) ->
    vadd q1 q2 = vadd q3 q4 -> 0 < minksq (vadd q1 q2) -> gram3 q1 q2 q3 <> 0 ->
  forall h rs rs', forallb no_setter h = true -> forallb reading rs = true -> forallb reading rs' = true ->
    let s := callm (num:=RN st eps) junk (q_cls x) n_set_momenta
      [GMom (num:=RN st eps) q1; GMom (num:=RN st eps) q2; GMom (num:=RN st eps) q3; GMom (num:=RN st eps) q4] (snd (orun (num:=RN st eps) junk (q_cls x) h o)) in
    let S := minksq (vadd q1 q2) in let T := minksq (vsub q1 q3) in let U := minksq (vsub q1 q4) in
    exists y z : R,
      fst (callm (num:=RN st eps) junk (q_cls x) n_amp2_Feynman [] (snd (orun (num:=RN st eps) junk (q_cls x) rs (snd s)))) = Ok (Some (RtT (num:=RN st eps) y)) /\
      fst (callm (num:=RN st eps) junk (q_cls x) n_amp2 [] (snd (orun (num:=RN st eps) junk (q_cls x) rs' (snd s)))) = Ok (Some (RtT (num:=RN st eps) z)) /\
      if existsb (fun b => b) (q_quark x) then y = gs ^ 4 * gg_QQ 0 S (T - m ^ 2) (U - m ^ 2) /\ (gs <> 0 -> y < z)
      else y = z.
Proof.
  intros x Hx HA st eps Heps junk gs m o Hm EC q1 q2 q3 q4 HS HC H0 HG h rs rs' Hno Hrs Hrs' s S T U.
  pose proof (C58_textbook_gluons x Hx st eps Heps junk gs m o Hm EC q1 q2 q3 q4 HS HC H0 HG h rs' Hno Hrs') as (_ & B). fold s S T U in B.
  destruct (chan_dots q1 q2 q3 q4) as (C0 & C1 & C2). pose proof (mandelstam q1 q2 q3 q4 HC) as SUM. fold S T U in SUM.
  change (S = minksq q1 + minksq q2 + 2 * minkdot q1 q2) in C0. change (T = minksq q1 + minksq q3 - 2 * minkdot q1 q3) in C1. change (U = minksq q1 + minksq q4 - 2 * minkdot q1 q4) in C2.
  destruct Hx as [<-|[<-|[<-|[<-|[<-|[]]]]]]; cbn [existsb q_quark orb] in EC |- *.
  - destruct (all_positive st eps (mkQcd ggdd [false; false; true; true] (fun m s t u => gg_QQ m s t u)) (fst (qe 0)) (snd (qe 0)) [gs; m] m (qe_in 0 ltac:(lia)) ltac:(four) ltac:(four) Hm q1 q2 q3 q4 HS HC H0 HG) as (PO & GR).
    pose proof (typed_ok st eps Heps (mkQcd ggdd [false; false; true; true] (fun m s t u => gg_QQ m s t u)) (fst (qe 0)) (snd (qe 0)) junk [gs; m] m o ltac:(unfold typed; apply in_eq) EC
      (qe_in 0 ltac:(lia)) eq_refl ltac:(four) ltac:(four) eq_refl eq_refl (conj eq_refl (conj eq_refl eq_refl)) HA Hm q1 q2 q3 q4 HS HC H0 HG h rs Hno Hrs) as V.
    products PO. pose proof (proj1 (HS 0%nat ltac:(lia))) as S0. pose proof (proj1 (HS 1%nat ltac:(lia))) as S1. pose proof (proj1 (HS 2%nat ltac:(lia))) as S2. pose proof (proj1 (HS 3%nat ltac:(lia))) as S3.
    unfold on_shell in S0, S1, S2, S3. cbn [q_quark nth] in S0, S1, S2, S3. rewrite Rmult_0_l in S0, S1.
    eexists. eexists. split; [exact V|]. split; [exact B|]. exact (quark_case gs m q1 q2 q3 q4 Hm S0 S1 S2 S3 HC ltac:(assumption) ltac:(assumption) ltac:(assumption) GR).
  - destruct (all_positive st eps (mkQcd gguu [false; false; true; true] (fun m s t u => gg_QQ m s t u)) (fst (qe 1)) (snd (qe 1)) [gs; m] m (qe_in 1 ltac:(lia)) ltac:(four) ltac:(four) Hm q1 q2 q3 q4 HS HC H0 HG) as (PO & GR).
    pose proof (typed_ok st eps Heps (mkQcd gguu [false; false; true; true] (fun m s t u => gg_QQ m s t u)) (fst (qe 1)) (snd (qe 1)) junk [gs; m] m o ltac:(unfold typed; apply in_cons; apply in_eq) EC
      (qe_in 1 ltac:(lia)) eq_refl ltac:(four) ltac:(four) eq_refl eq_refl (conj eq_refl (conj eq_refl eq_refl)) HA Hm q1 q2 q3 q4 HS HC H0 HG h rs Hno Hrs) as V.
    products PO. pose proof (proj1 (HS 0%nat ltac:(lia))) as S0. pose proof (proj1 (HS 1%nat ltac:(lia))) as S1. pose proof (proj1 (HS 2%nat ltac:(lia))) as S2. pose proof (proj1 (HS 3%nat ltac:(lia))) as S3.
    unfold on_shell in S0, S1, S2, S3. cbn [q_quark nth] in S0, S1, S2, S3. rewrite Rmult_0_l in S0, S1.
    eexists. eexists. split; [exact V|]. split; [exact B|]. exact (quark_case gs m q1 q2 q3 q4 Hm S0 S1 S2 S3 HC ltac:(assumption) ltac:(assumption) ltac:(assumption) GR).
  - destruct HA as (f & Hf & _). discriminate Hf.
  - destruct HA as (f & Hf & _). discriminate Hf.
  - destruct (all_positive st eps (mkQcd gggg [false; false; false; false] (fun _ s t u => gg_gg s t u / 2)) (fst (qe 4)) (snd (qe 4)) [gs] m (qe_in 4 ltac:(lia)) ltac:(four) ltac:(four) Hm q1 q2 q3 q4 HS HC H0 HG) as (PO & GR).
    pose proof (typed_ok st eps Heps (mkQcd gggg [false; false; false; false] (fun _ s t u => gg_gg s t u / 2)) (fst (qe 4)) (snd (qe 4)) junk [gs] m o ltac:(unfold typed; do 2 apply in_cons; apply in_eq) EC
      (qe_in 4 ltac:(lia)) eq_refl ltac:(four) ltac:(four) eq_refl eq_refl (conj eq_refl (conj eq_refl eq_refl)) HA Hm q1 q2 q3 q4 HS HC H0 HG h rs Hno Hrs) as V.
    products PO. pose proof (proj1 (HS 0%nat ltac:(lia))) as S0. pose proof (proj1 (HS 1%nat ltac:(lia))) as S1. pose proof (proj1 (HS 2%nat ltac:(lia))) as S2. pose proof (proj1 (HS 3%nat ltac:(lia))) as S3.
    unfold on_shell in S0, S1, S2, S3. cbn [q_quark nth] in S0, S1, S2, S3. rewrite Rmult_0_l in S0, S1, S2, S3.
    eexists. eexists. split; [exact V|]. split; [exact B|]. apply (gluon_typed gs S T U); lra.
Qed.
Print Assumptions C59_amp2_Feynman.

(** ** Example: two gluons into two d quarks, gs = 2, md = 5, all energies 13 *)
Lemma ggdd_built : match built true ggdd with POk _ => true | _ => false end = true.
Proof. vm_cast_no_check (eq_refl true). Qed.
Example C58_example :
  let q1 := V4 13 0 0 13 in let q2 := V4 13 0 0 (-13) in let q3 := V4 13 12 0 0 in let q4 := V4 13 (-12) 0 0 in
  vadd q1 q2 = vadd q3 q4 /\ minksq (vadd q1 q2) = 676 /\ minksq (vsub q1 q3) = -313 /\ gram3 q1 q2 q3 = 16451136 /\
  exists o : obj (RN false 0), construct (num:=RN false 0) (fun _ _ => 0) ggdd [2; 5] = (Ok tt, o) /\
    let s := callm (num:=RN false 0) (fun _ _ => 0) ggdd n_set_momenta [GMom (num:=RN false 0) q1; GMom (num:=RN false 0) q2; GMom (num:=RN false 0) q3; GMom (num:=RN false 0) q4] o in
    fst s = Ok None /\
    fst (callm (num:=RN false 0) (fun _ _ => 0) ggdd n_amp2 [] (snd s)) = Ok (Some (RtT (num:=RN false 0) (250327 / 85683))) /\
    fst (callm (num:=RN false 0) (fun _ _ => 0) ggdd n_amp2_Feynman [] (snd s)) = Ok (Some (RtT (num:=RN false 0) (7 / 3))).
Proof.
  assert (V : vadd (V4 13 0 0 13) (V4 13 0 0 (-13)) = vadd (V4 13 12 0 0) (V4 13 (-12) 0 0)) by (unfold vadd; cbn; f_equal; lra).
  assert (VS : minksq (vadd (V4 13 0 0 13) (V4 13 0 0 (-13))) = 676) by (unfold minksq, vadd; cbn; lra).
  assert (VT : minksq (vsub (V4 13 0 0 13) (V4 13 12 0 0)) = -313) by (unfold minksq, vsub; cbn; lra).
  assert (VU : minksq (vsub (V4 13 0 0 13) (V4 13 (-12) 0 0)) = -313) by (unfold minksq, vsub; cbn; lra).
  assert (VG : gram3 (V4 13 0 0 13) (V4 13 0 0 (-13)) (V4 13 12 0 0) = 16451136) by (unfold gram3, minkdot; cbn; lra).
  cbv zeta. split; [exact V|]. split; [exact VS|]. split; [exact VT|]. split; [exact VG|].
  destruct (built true ggdd) as [|y|b] eqn:EB; [pose proof ggdd_built as X; rewrite EB in X; discriminate X|pose proof ggdd_built as X; rewrite EB in X; discriminate X|].
  destruct (new_real 0 (fun _ _ => 0) ggdd [2; 5] b EB eq_refl) as (o & _ & EC & _). exists o. split; [exact EC|].
  assert (HS : forall k, (k < 4)%nat -> on_shell (if nth k [false; false; true; true] false then 5 else 0) (nth k [V4 13 0 0 13; V4 13 0 0 (-13); V4 13 12 0 0; V4 13 (-12) 0 0] (V4 13 (-12) 0 0))
    /\ 0 <= v_0 (nth k [V4 13 0 0 13; V4 13 0 0 (-13); V4 13 12 0 0; V4 13 (-12) 0 0] (V4 13 (-12) 0 0))).
  { intros [|[|[|[|k]]]] Hk; [..|lia]; unfold on_shell, minksq; cbn; lra. }
  pose proof (C58_textbook_gluons _ (or_introl eq_refl) false 0 (Rle_refl 0) (fun _ _ => 0) 2 5 o ltac:(lra) EC _ _ _ _ HS V ltac:(rewrite VS; lra) ltac:(rewrite VG; lra) [] [] eq_refl eq_refl) as (A & B).
  assert (HF : argless ggdd n_amp2_Feynman)
    by (exists (match find_meth ggdd n_amp2_Feynman with Some f => f | None => mkMeth xH [] SSkip end); split; reflexivity).
  destruct (C59_amp2_Feynman _ (or_introl eq_refl) HF false 0 (Rle_refl 0) (fun _ _ => 0) 2 5 o ltac:(lra) EC _ _ _ _ HS V ltac:(rewrite VS; lra) ltac:(rewrite VG; lra) [] [] [] eq_refl eq_refl eq_refl) as (y & z & Y & _ & E & _).
  split; [exact A|]. split.
  - etransitivity; [exact B|]. rewrite VS, VT, VU. cbn [q_formula]. unfold gg_QQ. do 3 f_equal. change (T (RN false 0)) with R. field.
  - etransitivity; [exact Y|]. rewrite VS, VT, VU in E. do 3 f_equal. etransitivity; [exact E|]. unfold gg_QQ. field.
Qed.
