(** * Property C67: the unit test of sproduct asserts true statements *)
From Coq Require Import Reals Lra Lia QArith Qreals.
From Coquelicot Require Import Complex.
From Verif Require Import Base Scalar Linear Particle ParticleProofs Sproduct RealNum ParticleReal Ready ParticleClaims
  World SpecSproduct SpecChain SpecSpinor WorldProofs SproductClaims SpinorReal ChainReal Utilities UtilReal Harness PropsUtil
  TestHarness UnitTests PropsUnit SpTests SpTestsReal SpTestsWorld SpTestsRun FeynmanMirror.
Close Scope Q_scope.
Open Scope R_scope.

(** the masses that will be drawn for the legs, [true] for a massless one, are positive:
    a momentum takes three numbers, the mass the next one *)
Fixpoint masses_ok (kinds : list bool) (s : nat -> R) : Prop :=
  match kinds with
  | [] => True
  | true :: k => masses_ok k (fun j => s (3 + j)%nat)
  | false :: k => 0 < s 3%nat /\ masses_ok k (fun j => s (4 + j)%nat)
  end.

Section Draw.
  Variables (st : bool) (eps : R).
  Notation num := (RN st eps).
  Notation rmom := (vec4 R).
  Definition of_kind (k : bool) (m : R) : Prop := if k then m = 0 else 0 < m.

  Lemma root_pos (a b c d : R) : a <> 0 -> 0 < sqrt (d * d + (0 + a * a + b * b + c * c)).
  Proof. intros Ha. apply sqrt_lt_R0. pose proof (Rsqr_pos_lt a Ha) as K. unfold Rsqr in K. nra. Qed.
  Lemma draw_leg_eval k (s : stream num) : never_zero st eps s -> masses_ok [k] s -> exists mq s',
    draw_leg (num:=num) k s = (Ok mq, s') /\ s' = (fun j => s ((if k then 3 else 4) + j)%nat) /\ good_leg mq /\ of_kind k (fst mq).
  Proof.
    intros HN HM. unfold draw_leg. destruct k.
    - exists (0, drawn0 st eps s), (shift st eps 3 s). split; [|split; [reflexivity|split; [|reflexivity]]].
      + unfold smap, choose_random_massless_momentum, choose_random_ldouble, sbind, sret.
        rewrite (ge_true st eps (tZ (n:=num) 50) (tZ (n:=num) (-50))) by (cbn; lra). reflexivity.
      + split; cbn [fst snd]; [apply drawn0_shell|]. unfold drawn0. cbn [v_0].
        pose proof (root_pos (s 0%nat) (s 1%nat) (s 2%nat) 0 (HN 0%nat)) as K.
        replace (0 * 0 + (0 + s 0%nat * s 0%nat + s 1%nat * s 1%nat + s 2%nat * s 2%nat))
          with (0 + s 0%nat * s 0%nat + s 1%nat * s 1%nat + s 2%nat * s 2%nat) in K by ring. exact K.
    - exists (s 3%nat, drawn st eps s), (shift st eps 4 s). split; [|split; [reflexivity|split; [|exact (proj1 HM)]]].
      + unfold choose_random_momentum, choose_random_ldouble, sbind, sret.
        rewrite (ge_true st eps (tZ (n:=num) 50) (tZ (n:=num) (-50))) by (cbn; lra).
        rewrite (ge_true st eps (tZ (n:=num) 50) (tZ (n:=num) 0)) by (cbn; lra). reflexivity.
      + split; cbn [fst snd]; [apply drawn_shell|]. unfold drawn. cbn [v_0]. exact (root_pos _ _ _ _ (HN 0%nat)).
  Qed.
  Lemma draw_legs kinds : forall s : stream num, never_zero st eps s -> masses_ok kinds s -> exists (legs : list (R * rmom)) s',
    each (draw_leg (num:=num)) kinds s = (Ok legs, s') /\ later st eps s s' /\ Forall good_leg legs /\ Forall2 (fun k mq => of_kind k (fst mq)) kinds legs.
  Proof.
    induction kinds as [|k kinds IH]; intros s HN HM.
    - exists [], s. split; [reflexivity|]. split; [exists 0%nat; reflexivity|]. split; constructor.
    - destruct (draw_leg_eval k s HN) as (mq & s1 & E1 & ES & G & K).
      { destruct k; cbn in *; tauto. }
      destruct (IH s1) as (legs & s2 & E2 & L2 & GL & KL).
      { intros n. rewrite ES. apply HN. }
      { rewrite ES. destruct k; cbn in HM |- *; tauto. }
      exists (mq :: legs), s2. split; [|split; [|split; [constructor; assumption|constructor; assumption]]].
      + cbn [each]. apply (eq_trans (sbind_Ok _ _ _ _ _ E1)). apply (eq_trans (sbind_Ok _ _ _ _ _ E2)). reflexivity.
      + apply (later_trans st eps s s1 s2); [exists (if k then 3 else 4)%nat; intros j; rewrite ES; reflexivity|exact L2].
  Qed.
End Draw.

Section Pass.
  Variables (st : bool) (eps : R).
  Hypothesis He : 0 < eps.
  Notation num := (RN st eps).
  Notation rmom := (vec4 R).
  Notation legs_t := (list (R * rmom)).
  Notation KW := (KW st eps).

  Lemma shells legs : Forall good_leg legs -> Forall (fun mq : R * rmom => on_shell (fst mq) (snd mq)) legs.
  Proof. apply Forall_impl. intros mq H. apply H. Qed.
  Lemma local_ok {A} (x : ST (both (num:=num)) A) s a s' w' : x (s, mkWorld [] []) = (Ok a, (s', w')) -> local x s = (Ok a, s').
  Proof. intros E. unfold local. rewrite E. reflexivity. Qed.

  Section Product.
    Variables (fuel : nat) (c : pcase (num:=num)) (o : nat) (legs : legs_t) (e : R).
    Hypothesis G : Forall good_leg legs.
    Let n := length legs.
    Hypothesis HF : Forall (fun h => fits_in n h /\ h_L h = 0%nat /\ h_R h = 1%nat /\ h_Lu h = true /\ h_Ru h = true) (pc_sps c).
    Hypothesis HA : Forall (fun a => (a < n)%nat) (pc_args c).
    Hypothesis HC : forall a, (a < n)%nat -> In a (pc_args c).
    Hypothesis HN : pc_ni c o = (n_massive (md legs 0) + n_massive (md legs 1))%nat.
    Hypothesis HFac : pc_factor c <> 0%Z.
    Hypothesis HE : forall U w, KW legs (pc_sps c) U w -> pc_expected c (map fst legs) w = (Ok e, w).
    Hypothesis HI : Forall (fun i => exists h1 h2, nth_error (pc_sps c) (fst i) = Some h1 /\ nth_error (pc_sps c) (snd i) = Some h2 /\
       forall l, like legs l -> fst (total st eps l h1 h2) = e) (pc_calls c).
    Lemma sps_fit i h : nth_error (pc_sps c) i = Some h -> fits_in n h /\ h_L h = 0%nat /\ h_R h = 1%nat /\ h_Lu h = true /\ h_Ru h = true.
    Proof. intros H. exact (proj1 (Forall_forall _ _) HF h (nth_error_In _ _ H)). Qed.
    Lemma calls_true : forall s0 s w l U, rng_ready st eps False fuel s0 -> later st eps s0 s -> like legs l -> KW l (pc_sps c) U w ->
      exists bs s' w', each (fun i => test_sproduct (num:=num) fuel (fst i) (snd i) (pc_ni c o) (pc_args c) e (pc_factor c)) (pc_calls c) (s, w)
        = (Ok bs, (s', w')) /\ concat bs = all_true (10 * length (pc_calls c)) /\ later st eps s0 s'.
    Proof.
      revert HI. generalize (pc_calls c) as cs. induction cs as [|i is_ IH]; intros HI' s0 s w l U HR HL HK HW.
      - exists [], s, w. split; [reflexivity|]. split; [reflexivity|exact HL].
      - inversion HI' as [|? ? (h1 & h2 & H1 & H2 & HT) HI2]; subst. destruct (sps_fit _ _ H1) as (F1 & L1 & R1 & Lu1 & Ru1). destruct (sps_fit _ _ H2) as (F2 & L2 & R2 & Lu2 & Ru2).
        destruct (test_true st eps He fuel (fst i) (snd i) (pc_sps c) h1 h2 legs e (pc_factor c) (pc_args c) H1 H2 F1 F2) with (l := l) (U := U) (s := s) (w := w)
          as (s1 & w1 & l1 & U1 & E1 & LS & LK & K1).
        + unfold pairable. rewrite L1, L2, R1, R2. auto 10.
        + exact HFac.
        + exact HA.
        + exact HC.
        + exact HT.
        + exact (later_ready st eps fuel _ _ HL HR).
        + exact HK.
        + exact HW.
        + rewrite L1, R1, <- HN in E1.
          destruct (IH HI2 s0 s1 w1 l1 U1 HR (later_trans _ _ _ _ _ HL LS) LK K1) as (bs & s2 & w2 & E2 & EB & L2').
          exists (all_true 10 :: bs), s2, w2. split; [|split; [|exact L2']].
          * cbn [each]. apply (eq_trans (sbind_Ok _ _ _ _ _ E1)). apply (eq_trans (sbind_Ok _ _ _ _ _ E2)). reflexivity.
          * cbn [concat length]. rewrite EB, all_true_app. f_equal. lia.
    Qed.
    Lemma product_true g s s1 : rng_ready st eps False fuel s -> each (draw_leg (num:=num)) (pc_massless c o) s = (Ok legs, s1) -> later st eps s s1 ->
      exists s', product_pass (num:=num) fuel g c o s = (Ok (all_true (10 * length (pc_calls c))), s') /\ later st eps s s'.
    Proof.
      intros HR ED HL. destruct (make_all_eval st eps (Rlt_le _ _ He) g legs (shells _ G)) as (w1 & E1 & K1).
      destruct (make_sps_eval st eps legs (pc_sps c) w1) as (w2 & E2 & K2).
      { eapply Forall_impl; [|exact HF]. intros h (A & _ & _ & B & C). split; [exact A|]. split; auto. }
      { exact K1. }
      destruct (calls_true s s1 w2 legs _ HR HL (like_refl _ G) K2) as (bs & s2 & w3 & E3 & EB & L3).
      exists s2. split; [|exact L3]. unfold product_pass. apply (local_ok _ _ _ _ w3).
      rewrite (rng_step st eps _ _ s _ _ s1 ED), (wor_step st eps _ _ s1 _ _ w1 E1), (wor_step st eps _ _ s1 _ _ w2 E2), (wor_step st eps _ _ s1 _ _ w2 (HE _ _ K2)).
      apply (eq_trans (sbind_Ok _ _ _ _ _ E3)). unfold sret. rewrite EB. reflexivity.
    Qed.
  End Product.

  (** ** the expected values *)
  Lemma mass_md legs k : mass_of (num:=num) (map fst legs) k = md legs k.
  Proof. unfold mass_of, md. revert k. induction legs as [|mq legs IH]; intros [|k]; cbn; auto. Qed.
  Lemma leg_nth legs a : Forall good_leg legs -> (a < length legs)%nat -> on_shell (md legs a) (qd legs a) /\ 0 <= v_0 (qd legs a).
  Proof.
    intros G Ha. pose proof (proj1 (Forall_forall _ _) G _ (nth_In legs (0, V4 0 0 0 0) Ha)) as [K1 K2]. split; [exact K1|]. unfold qd. lra.
  Qed.
  Lemma kinds_nth kinds legs : Forall2 (fun k (mq : R * rmom) => of_kind k (fst mq)) kinds legs -> length legs = length kinds /\
    forall a, (a < length kinds)%nat -> of_kind (nth a kinds false) (md legs a).
  Proof.
    induction 1 as [|k mq kinds legs H _ [E IH]]; cbn [length]; [split; [reflexivity|intros; lia]|]. split; [now rewrite E|].
    intros [|a] Ha; [exact H|]. apply IH. lia.
  Qed.
  Lemma massive_kind k m : of_kind k m -> n_massive m = if k then 0%nat else 1%nat.
  Proof.
    destruct k; cbn; unfold n_massive; intros H.
    - rewrite H, Reqb_refl. reflexivity.
    - rewrite (proj2 (Reqb_false m 0)) by lra. reflexivity.
  Qed.
  Lemma abs_kind k m : of_kind k m -> Rabs m = m.
  Proof. destruct k; cbn; intros H; [subst; apply Rabs_R0|apply Rabs_pos_eq; lra]. Qed.

  Lemma dots3_eval legs hs U w (k : R) a b d f h i j p q r t u : KW legs hs U w ->
    Forall (fun x => (x < length legs)%nat) [a; b; d; f; h; i; j; p; q; r; t; u] ->
    let D x y := minkdot (qd legs x) (qd legs y) in
    dots3 (num:=num) k a b d f h i j p q r t u w = (Ok (k * D a b * D d f - k * D h i * D j p + k * D q r * D t u), w).
  Proof.
    intros HK HF D. repeat match goal with H : Forall _ (_ :: _) |- _ => inversion H; clear H; subst end.
    unfold dots3. repeat (etransitivity; [apply sbind_Ok; apply (pdot_eval st eps legs hs U w); assumption|]). reflexivity.
  Qed.
  Ltac nums := repeat constructor; lia.
  Ltac the_legs := match goal with K : like ?legs ?l, G : length ?legs = _ |- _ =>
    pose proof (lk_len _ _ K) as KL; rewrite G in KL; cbn [length] in KL;
    pose proof (fun a => leg_nth l a (lk_good _ _ K)) as LN; rewrite KL in LN;
    pose proof (lk_m _ _ K) as KM; pose proof (lk_dot _ _ K) as KD; rewrite G in KD; cbn [length] in KD end.

  Lemma cases_true fuel g (c : pcase (num:=num)) o s : In c (pcases (num:=num)) -> (o < pc_passes c)%nat ->
    masses_ok (pc_massless c o) s -> never_zero st eps s -> timely st eps fuel s ->
    exists s', product_pass (num:=num) fuel g c o s = (Ok (all_true (10 * length (pc_calls c))), s') /\ later st eps s s'.
  Proof.
    intros Hc Ho HM HZ HT. assert (HR : rng_ready st eps False fuel s) by (split; [exact HZ|right; exact HT]).
    destruct (draw_legs st eps (pc_massless c o) s HZ HM) as (legs & s1 & ED & HL & G & HK).
    destruct (kinds_nth _ _ HK) as (EL & KN).
    assert (HN : pc_ni c o = ((if nth 0 (pc_massless c o) false then 0 else 1) + (if nth 1 (pc_massless c o) false then 0 else 1))%nat).
    { clear - Hc Ho. repeat (destruct Hc as [<-|Hc]; [cbn [pc_passes case1 case2 case3 case4 case5 case6 case7 case8] in Ho;
        do 16 (destruct o as [|o]; [reflexivity|]); lia|]). destruct Hc. }
    assert (HN' : (2 <= length (pc_massless c o))%nat).
    { clear - Hc. repeat (destruct Hc as [<-|Hc]; [cbn; lia|]). destruct Hc. }
    rewrite <- (massive_kind _ _ (KN 0%nat ltac:(lia))), <- (massive_kind _ _ (KN 1%nat ltac:(lia))) in HN.
    clear HK HN' HM HT.
    assert (GO : forall e, Forall (fun h => fits_in (length legs) h /\ h_L h = 0%nat /\ h_R h = 1%nat /\ h_Lu h = true /\ h_Ru h = true) (pc_sps c) ->
        Forall (fun a => (a < length legs)%nat) (pc_args c) -> (forall a, (a < length legs)%nat -> In a (pc_args c)) -> pc_factor c <> 0%Z ->
        (forall U w, KW legs (pc_sps c) U w -> pc_expected c (map fst legs) w = (Ok e, w)) ->
        Forall (fun i => exists h1 h2, nth_error (pc_sps c) (fst i) = Some h1 /\ nth_error (pc_sps c) (snd i) = Some h2 /\
          forall l, like legs l -> fst (total st eps l h1 h2) = e) (pc_calls c) ->
        exists s', product_pass (num:=num) fuel g c o s = (Ok (all_true (10 * length (pc_calls c))), s') /\ later st eps s s').
    { intros e A1 A2 A3 A4 A5 A6. exact (product_true fuel c o legs e G A1 A2 A3 HN A4 A5 A6 g s s1 HR ED HL). }
    clear HN HR ED HL HZ s1.
    repeat (destruct Hc as [<-|Hc]; [cbn [pc_passes pc_massless pc_ni pc_sps pc_expected pc_calls pc_args pc_factor case1 case2 case3 case4 case5 case6 case7 case8 four_masses length] in *|]).
    9:{ destruct Hc. }
    all: rewrite EL in GO.
    all: match type of GO with forall e, ?A -> ?B -> ?C -> ?D -> _ =>
      assert (FA : A) by (repeat (apply Forall_cons; [split; [intros a Ha; cbn in Ha; lia|repeat split; reflexivity]|]); apply Forall_nil);
      assert (FB : B) by nums; assert (FC : C) by (intros a Ha; cbn; lia); assert (FD : D) by lia end.
    - apply (GO (2 * minkdot (qd legs 0) (qd legs 1)) FA FB FC FD); clear GO FA FB FC FD.
      + intros U w K. apply (eq_trans (sbind_Ok _ _ _ _ _ (pdot_eval st eps legs _ U w 0 1 K ltac:(lia) ltac:(lia)))). reflexivity.
      + repeat constructor. eexists _, _. split; [reflexivity|]. split; [reflexivity|]. intros l K. the_legs.
        unfold total. cbn [h_angle h_mid h_L h_R map]. destruct (LN 0%nat ltac:(lia)) as [A1 A2], (LN 1%nat ltac:(lia)) as [B1 B2].
        rewrite (id1 st eps (md l 0) (md l 1)) by assumption. rewrite KD by lia. reflexivity.
    - apply (GO (- 2 * md legs 0 * md legs 1) FA FB FC FD); clear GO FA FB FC FD.
      + intros U w K. rewrite !mass_md. reflexivity.
      + assert (NZ : ~ (md legs 0 = 0 /\ md legs 1 = 0)).
        { pose proof (KN 0%nat ltac:(lia)) as K0. pose proof (KN 1%nat ltac:(lia)) as K1. cbn [nth] in K0, K1.
          destruct o as [|[|[|o]]]; [| | |lia]; cbn [among existsb Nat.eqb orb of_kind] in K0, K1; lra. }
        pose proof (abs_kind _ _ (KN 0%nat ltac:(lia))) as P0. pose proof (abs_kind _ _ (KN 1%nat ltac:(lia))) as P1.
        repeat constructor; (eexists _, _; split; [reflexivity|]; split; [reflexivity|]; intros l K; the_legs;
          unfold total; cbn [h_angle h_mid h_L h_R map]; destruct (LN 0%nat ltac:(lia)) as [A1 A2], (LN 1%nat ltac:(lia)) as [B1 B2]).
        * pose proof (id2 st eps (md l 0) (md l 1) _ _ A1 A2 B1 B2 false ltac:(rewrite !KM; exact NZ)) as I. cbn [negb] in I. rewrite I, !KM, P0, P1. reflexivity.
        * pose proof (id2 st eps (md l 0) (md l 1) _ _ A1 A2 B1 B2 true ltac:(rewrite !KM; exact NZ)) as I. cbn [negb] in I. rewrite I, !KM, P0, P1. reflexivity.
    - apply (GO (2 * md legs 0 * minkdot (qd legs 1) (qd legs 2)) FA FB FC FD); clear GO FA FB FC FD.
      + intros U w K. apply (eq_trans (sbind_Ok _ _ _ _ _ (pdot_eval st eps legs _ U w 1 2 K ltac:(lia) ltac:(lia)))). rewrite mass_md. reflexivity.
      + pose proof (abs_kind _ _ (KN 0%nat ltac:(lia))) as P0. pose proof (KN 0%nat ltac:(lia)) as N0. cbn [nth of_kind] in N0.
        repeat constructor. eexists _, _. split; [reflexivity|]. split; [reflexivity|]. intros l K. the_legs.
        unfold total. cbn [h_angle h_mid h_L h_R map]. destruct (LN 0%nat ltac:(lia)) as [A1 A2], (LN 1%nat ltac:(lia)) as [B1 B2].
        rewrite (id3 st eps (md l 0) (md l 1)) by (try assumption; rewrite KM; lra). rewrite KD, KM, P0 by lia. reflexivity.
    - apply (GO (- 2 * md legs 0 * md legs 1 * minkdot (qd legs 2) (qd legs 3)) FA FB FC FD); clear GO FA FB FC FD.
      + intros U w K. apply (eq_trans (sbind_Ok _ _ _ _ _ (pdot_eval st eps legs _ U w 2 3 K ltac:(lia) ltac:(lia)))). rewrite !mass_md. reflexivity.
      + pose proof (abs_kind _ _ (KN 0%nat ltac:(lia))) as P0. pose proof (KN 0%nat ltac:(lia)) as N0. cbn [nth of_kind] in N0.
        pose proof (abs_kind _ _ (KN 1%nat ltac:(lia))) as P1. pose proof (KN 1%nat ltac:(lia)) as N1. cbn [nth of_kind] in N1.
        repeat constructor. eexists _, _. split; [reflexivity|]. split; [reflexivity|]. intros l K. the_legs.
        unfold total. cbn [h_angle h_mid h_L h_R map]. destruct (LN 0%nat ltac:(lia)) as [A1 A2], (LN 1%nat ltac:(lia)) as [B1 B2].
        rewrite (id4 st eps (md l 0) (md l 1)) by (try assumption; rewrite KM; lra). rewrite KD, !KM, P0, P1 by lia. reflexivity.
    - apply (GO (2 * minkdot (qd legs 0) (qd legs 1) * minkdot (qd legs 2) (qd legs 3) - 2 * minkdot (qd legs 0) (qd legs 2) * minkdot (qd legs 1) (qd legs 3)
          + 2 * minkdot (qd legs 0) (qd legs 3) * minkdot (qd legs 1) (qd legs 2)) FA FB FC FD); clear GO FA FB FC FD.
      + intros U w K. apply (dots3_eval legs _ U w 2 0 1 2 3 0 2 1 3 0 3 1 2 K). rewrite EL. nums.
      + repeat constructor. eexists _, _. split; [reflexivity|]. split; [reflexivity|]. intros l K. the_legs.
        unfold total. cbn [h_angle h_mid h_L h_R map]. destruct (LN 0%nat ltac:(lia)) as [A1 A2], (LN 1%nat ltac:(lia)) as [B1 B2].
        rewrite (id5 st eps (md l 0) (md l 1)) by assumption. rewrite !KD by lia. reflexivity.
    - apply (GO (- 2 * md legs 0 * md legs 1 * minkdot (qd legs 2) (qd legs 3)) FA FB FC FD); clear GO FA FB FC FD.
      + intros U w K. apply (eq_trans (sbind_Ok _ _ _ _ _ (pdot_eval st eps legs _ U w 2 3 K ltac:(lia) ltac:(lia)))). rewrite !mass_md. reflexivity.
      + pose proof (abs_kind _ _ (KN 0%nat ltac:(lia))) as P0. pose proof (KN 0%nat ltac:(lia)) as N0. cbn [nth of_kind] in N0.
        pose proof (abs_kind _ _ (KN 1%nat ltac:(lia))) as P1. pose proof (KN 1%nat ltac:(lia)) as N1. cbn [nth of_kind] in N1.
        repeat constructor. eexists _, _. split; [reflexivity|]. split; [reflexivity|]. intros l K. the_legs.
        unfold total. cbn [h_angle h_mid h_L h_R map]. destruct (LN 0%nat ltac:(lia)) as [A1 A2], (LN 1%nat ltac:(lia)) as [B1 B2].
        rewrite (id6 st eps (md l 0) (md l 1)) by (try assumption; rewrite KM; lra). rewrite KD, !KM, P0, P1 by lia. reflexivity.
    - apply (GO (2 * minkdot (qd legs 0) (qd legs 3) * minkdot (qd legs 1) (qd legs 2) - 2 * minkdot (qd legs 0) (qd legs 1) * minkdot (qd legs 2) (qd legs 3)
          + 2 * minkdot (qd legs 0) (qd legs 2) * minkdot (qd legs 1) (qd legs 3)) FA FB FC FD); clear GO FA FB FC FD.
      + intros U w K. apply (dots3_eval legs _ U w 2 0 3 1 2 0 1 2 3 0 2 1 3 K). rewrite EL. nums.
      + repeat constructor. eexists _, _. split; [reflexivity|]. split; [reflexivity|]. intros l K. the_legs.
        unfold total. cbn [h_angle h_mid h_L h_R map]. destruct (LN 0%nat ltac:(lia)) as [A1 A2], (LN 1%nat ltac:(lia)) as [B1 B2].
        rewrite (id7 st eps (md l 0) (md l 1)) by assumption. rewrite !KD by lia. reflexivity.
    - set (D a b := minkdot (qd legs a) (qd legs b)).
      apply (GO (- 2 * md legs 1 * (1 * D 0%nat 3%nat * D 2%nat 4%nat - 1 * D 0%nat 4%nat * D 2%nat 3%nat + 1 * D 0%nat 2%nat * D 3%nat 4%nat)) FA FB FC FD); clear GO FA FB FC FD.
      + intros U w K. apply (eq_trans (sbind_Ok _ _ _ _ _ (dots3_eval legs _ U w 1 0 3 2 4 0 4 2 3 0 2 3 4 K ltac:(rewrite EL; nums)))).
        rewrite mass_md. reflexivity.
      + pose proof (abs_kind _ _ (KN 1%nat ltac:(lia))) as P1. pose proof (KN 1%nat ltac:(lia)) as N1. cbn [nth of_kind] in N1.
        repeat constructor. eexists _, _. split; [reflexivity|]. split; [reflexivity|]. intros l K. the_legs.
        unfold total. cbn [h_angle h_mid h_L h_R map]. destruct (LN 0%nat ltac:(lia)) as [A1 A2], (LN 1%nat ltac:(lia)) as [B1 B2].
        rewrite (id8 st eps (md l 0) (md l 1)) by (try assumption; rewrite KM; lra). rewrite !KD, !KM, P1 by lia. unfold D. ring.
  Qed.
End Pass.

(** ** sums of products of v *)
Section Values.
  Variables (st : bool) (eps : R).
  Hypothesis He : 0 < eps.
  Notation num := (RN st eps).
  Notation rmom := (vec4 R).
  Notation legs_t := (list (R * rmom)).
  Notation KW := (KW st eps).
  Notation rchain := (rchain st eps).
  Notation vcall_of := (vcall_of st eps).
  Variables (l : legs_t) (hs : list shape).
  Definition yields {A} (x : ST (World.world num) A) (a : A) : Prop :=
    forall w, KW l hs (fun _ => true) w -> exists w', x w = (Ok a, w') /\ KW l hs (fun _ => true) w'.
  Lemma yields_bind {A B} (x : ST (World.world num) A) (f : A -> ST (World.world num) B) a b : yields x a -> yields (f a) b -> yields (sbind x f) b.
  Proof.
    intros X Y w K. destruct (X w K) as (w1 & E1 & K1). destruct (Y w1 K1) as (w2 & E2 & K2). exists w2.
    split; [exact (eq_trans (sbind_Ok _ _ _ _ _ E1) E2)|exact K2].
  Qed.
  Lemma yields_ret {A} (a b : A) : a = b -> yields (sret a) b.
  Proof. intros -> w K. exists w. split; [reflexivity|exact K]. Qed.
  Lemma yields_ap2 {A B X} (f : A -> B -> X) x y a b : yields x a -> yields y b -> yields (ap2 f x y) (f a b).
  Proof. intros HX HY. apply (yields_bind _ _ a _ HX), (yields_bind _ _ b _ HY), yields_ret. reflexivity. Qed.
  Lemma yields_smap {A B} (f : A -> B) x a : yields x a -> yields (smap f x) (f a).
  Proof. intros HX. apply (yields_bind _ _ a _ HX), yields_ret. reflexivity. Qed.
  Lemma yields_each {A} (f : A -> ST (World.world num) bool) L : Forall (fun a => yields (f a) true) L -> yields (each f L) (all_true (length L)).
  Proof.
    induction 1 as [|a L HA _ IH]; [apply yields_ret; reflexivity|]. cbn [each].
    apply (yields_bind _ _ true _ HA), (yields_bind _ _ _ _ IH), yields_ret. reflexivity.
  Qed.
  Lemma yields_v i h sL sR : nth_error hs i = Some h -> fits_in (length l) h -> good_spin (md l (h_L h)) sL -> good_spin (md l (h_R h)) sR ->
    yields (on_sp i (vcall_of sL sR)) (chain_of st eps l h sL sR).
  Proof. intros Hi HF GL GR w K. exact (v_eval st eps l hs _ w i h sL sR K Hi eq_refl HF GL GR). Qed.
  Lemma small_0 (k : R) (z : C) : k <> 0 -> z = RtoC 0 -> small_by (num:=num) k (@cabs num z) = true.
  Proof. intros Hk ->. apply small_by_0; [exact Hk|]. exact Cmod_0. Qed.
  Lemma yields_zero k x (z : C) : k <> 0 -> yields x z -> z = RtoC 0 -> yields (zero_check (num:=num) k x) true.
  Proof. intros Hk HX HZ. apply (yields_bind _ _ z _ HX), yields_ret, small_0; assumption. Qed.

  (** *** the spin sums *)
  Lemma sum_yields h1 h2 h3 factor sL sR :
    hs = [h1; h2; h3] -> Forall (fits_in (length l)) hs ->
    good_spin (md l (h_L h1)) sL -> good_spin (md l (h_R h2)) sR ->
    h_L h3 = h_L h1 -> h_R h3 = h_R h2 -> md l (h_R h1) <> 0 -> md l (h_L h2) <> 0 ->
    Cplus (Cmult (chain_of st eps l h1 sL (Some (-1)%Z)) (chain_of st eps l h2 (Some (-1)%Z) sR))
          (Cmult (chain_of st eps l h1 sL (Some 1%Z)) (chain_of st eps l h2 (Some 1%Z) sR))
      = Cmult (RtoC factor) (chain_of st eps l h3 sL sR) ->
    yields (sum_check (num:=num) factor (fun d => vcall_of sL (Some d)) (fun d => vcall_of (Some d) sR) (vcall_of sL sR)) true.
  Proof.
    intros EH HF GL GR EL ER M1 M2 HI. rewrite EH in HF.
    inversion HF as [|? ? F1 HF1]; subst. inversion HF1 as [|? ? F2 HF2]; subst. inversion HF2 as [|? ? F3 _]; subst. clear HF HF1 HF2.
    assert (V1 : forall d, (d = 1 \/ d = -1)%Z -> yields (on_sp 0 (vcall_of sL (Some d))) (chain_of st eps l h1 sL (Some d)))
      by (intros d Hd; apply yields_v; [rewrite EH; reflexivity|assumption|assumption|split; assumption]).
    assert (V2 : forall d, (d = 1 \/ d = -1)%Z -> yields (on_sp 1 (vcall_of (Some d) sR)) (chain_of st eps l h2 (Some d) sR))
      by (intros d Hd; apply yields_v; [rewrite EH; reflexivity|assumption|split; assumption|assumption]).
    assert (V3 : yields (on_sp 2 (vcall_of sL sR)) (chain_of st eps l h3 sL sR))
      by (apply yields_v; [rewrite EH; reflexivity|assumption|rewrite EL; assumption|rewrite ER; assumption]).
    unfold sum_check, sum2.
    eapply yields_bind.
    { apply (yields_bind _ _ _ _ (V1 (-1)%Z (or_intror eq_refl))), (yields_bind _ _ _ _ (V2 (-1)%Z (or_intror eq_refl))),
        (yields_bind _ _ _ _ (V1 1%Z (or_introl eq_refl))), (yields_bind _ _ _ _ (V2 1%Z (or_introl eq_refl))).
      apply yields_ret. reflexivity. }
    apply (yields_bind _ _ _ _ V3), yields_ret, small_0.
    - change (eps * 1000000000 <> 0). lra.
    - change (Cminus (Cplus (Cplus (RtoC 0) (Cmult (chain_of st eps l h1 sL (Some (-1)%Z)) (chain_of st eps l h2 (Some (-1)%Z) sR)))
          (Cmult (chain_of st eps l h1 sL (Some 1%Z)) (chain_of st eps l h2 (Some 1%Z) sR))) (Cmult (RtoC factor) (chain_of st eps l h3 sL sR)) = RtoC 0).
      rewrite <- HI. ring.
  Qed.
  Lemma spinsum_yields h1 h2 h3 (factor : R) m1 m3 :
    hs = [h1; h2; h3] -> Forall (fits_in (length l)) hs -> h_L h3 = h_L h1 -> h_R h3 = h_R h2 -> md l (h_R h1) <> 0 -> md l (h_L h2) <> 0 ->
    m1 = md l (h_L h1) -> m3 = md l (h_R h2) ->
    (forall sL sR, good_spin m1 sL -> good_spin m3 sR ->
      Cplus (Cmult (chain_of st eps l h1 sL (Some (-1)%Z)) (chain_of st eps l h2 (Some (-1)%Z) sR))
            (Cmult (chain_of st eps l h1 sL (Some 1%Z)) (chain_of st eps l h2 (Some 1%Z) sR))
        = Cmult (RtoC factor) (chain_of st eps l h3 sL sR)) ->
    yields (spinsum (num:=num) m1 m3 factor) (all_true ((if Reqb m1 0 then 1 else 2) * (if Reqb m3 0 then 1 else 2))).
  Proof.
    intros EH HF EL ER M1 M2 E1 E3 HI. unfold spinsum. change (@teqb num) with Reqb.
    change (@tZ num 0) with 0.
    assert (S : forall sL sR, good_spin m1 sL -> good_spin m3 sR ->
      yields (sum_check (num:=num) factor (fun d => vcall_of sL (Some d)) (fun d => vcall_of (Some d) sR) (vcall_of sL sR)) true).
    { intros sL sR GL GR. apply (sum_yields h1 h2 h3); try assumption; [rewrite <- E1; exact GL|rewrite <- E3; exact GR|exact (HI sL sR GL GR)]. }
    destruct (Reqb m1 0) eqn:Z1, (Reqb m3 0) eqn:Z3; cbn [andb]; repeat match goal with
      | H : Reqb _ _ = true |- _ => apply Reqb_true in H | H : Reqb _ _ = false |- _ => apply Reqb_false in H end.
    - apply (yields_each _ [tt]). repeat constructor. exact (S None None Z1 Z3).
    - apply (yields_each _ spins). repeat constructor; [exact (S None (Some (-1)%Z) Z1 (conj Z3 (or_intror eq_refl)))|exact (S None (Some 1%Z) Z1 (conj Z3 (or_introl eq_refl)))].
    - apply (yields_each _ spins). repeat constructor; [exact (S (Some (-1)%Z) None (conj Z1 (or_intror eq_refl)) Z3)|exact (S (Some 1%Z) None (conj Z1 (or_introl eq_refl)) Z3)].
    - apply (yields_each _ [(-1, -1); (-1, 1); (1, -1); (1, 1)]%Z). repeat constructor; cbn [fst snd].
      + exact (S (Some (-1)%Z) (Some (-1)%Z) (conj Z1 (or_intror eq_refl)) (conj Z3 (or_intror eq_refl))).
      + exact (S (Some (-1)%Z) (Some 1%Z) (conj Z1 (or_intror eq_refl)) (conj Z3 (or_introl eq_refl))).
      + exact (S (Some 1%Z) (Some (-1)%Z) (conj Z1 (or_introl eq_refl)) (conj Z3 (or_intror eq_refl))).
      + exact (S (Some 1%Z) (Some 1%Z) (conj Z1 (or_introl eq_refl)) (conj Z3 (or_introl eq_refl))).
  Qed.
End Values.

Section Rest.
  Variables (st : bool) (eps : R).
  Hypothesis He : 0 < eps.
  Notation num := (RN st eps).
  Notation rmom := (vec4 R).
  Notation legs_t := (list (R * rmom)).
  Notation KW := (KW st eps).
  Notation rchain := (rchain st eps).

  Lemma scase_true (c : scase (num:=num)) (legs : legs_t) : In c (scases (num:=num)) -> length legs = 3%nat -> Forall good_leg legs -> 0 < md legs 1 ->
    yields st eps legs [sc_1 c; sc_2 c; sc_prod c] (spinsum (num:=num) (md legs 0) (md legs 2) (sc_factor c (md legs 1)))
      (all_true ((if Reqb (md legs 0) 0 then 1 else 2) * (if Reqb (md legs 2) 0 then 1 else 2))).
  Proof.
    intros Hc HL G HM. destruct (leg_nth legs 1 G ltac:(lia)) as [S1 P1]. pose proof (Rabs_pos_eq (md legs 1) ltac:(lra)) as PA.
    repeat (destruct Hc as [<-|Hc]; [cbn [sc_1 sc_2 sc_prod sc_factor]|]); [..|destruct Hc].
    all: eapply (spinsum_yields st eps He legs _ _ _ _ _ _ _ eq_refl);
      [repeat (apply Forall_cons; [intros a Ha; cbn in Ha; lia|]); apply Forall_nil|reflexivity|reflexivity|cbn; lra|cbn; lra|reflexivity|reflexivity|].
    all: intros sL sR _ _; unfold chain_of; cbn [h_angle h_L h_Lu h_mid h_R h_Ru map arg].
    - pose proof (insert_massive st eps false (arg sL true) (qd legs 0) [] _ _ false [] (arg sR true) (qd legs 2) S1 P1) as K.
      cbn [length Nat.even Bool.eqb negb app csign] in K. exact K.
    - pose proof (insert_massive st eps false (arg sL true) (qd legs 0) [] _ _ true [] (arg sR true) (qd legs 2) S1 P1) as K.
      cbn [length Nat.even Bool.eqb negb app csign] in K. exact K.
    - pose proof (insert_massive st eps true (arg sL true) (qd legs 0) [] _ _ true [] (arg sR true) (qd legs 2) S1 P1) as K.
      cbn [length Nat.even Bool.eqb negb app csign] in K. exact K.
    - pose proof (insert_massive st eps true (arg sL true) (qd legs 0) [] _ _ false [] (arg sR true) (qd legs 2) S1 P1) as K.
      cbn [length Nat.even Bool.eqb negb app csign] in K. exact K.
    - pose proof (insert_mass st eps false (arg sL true) (qd legs 0) [] _ _ false [] (arg sR true) (qd legs 2) S1 P1) as K.
      cbn [length Nat.even Bool.eqb negb app csign] in K. rewrite PA, Rmult_1_l in K. exact K.
    - pose proof (insert_mass st eps false (arg sL true) (qd legs 0) [] _ _ true [] (arg sR true) (qd legs 2) S1 P1) as K.
      cbn [length Nat.even Bool.eqb negb app csign] in K. rewrite PA in K.
      replace (-1 * md legs 1) with (- md legs 1) in K by ring. exact K.
    - pose proof (insert_mass st eps true (arg sL true) (qd legs 0) [] _ _ true [] (arg sR true) (qd legs 2) S1 P1) as K.
      cbn [length Nat.even Bool.eqb negb app csign] in K. rewrite PA, Rmult_1_l in K. exact K.
    - pose proof (insert_mass st eps true (arg sL true) (qd legs 0) [] _ _ false [] (arg sR true) (qd legs 2) S1 P1) as K.
      cbn [length Nat.even Bool.eqb negb app csign] in K. rewrite PA in K.
      replace (-1 * md legs 1) with (- md legs 1) in K by ring. exact K.
  Qed.
  (** the checks of a pass of a spin sum test: one for each spin of the massive ends *)
  Definition sum_checks (o : nat) : nat := (if among o [1; 3]%nat then 1 else 2) * (if among o [2; 3]%nat then 1 else 2).
  Lemma kind_Reqb k m : of_kind k m -> Reqb m 0 = k.
  Proof. destruct k; cbn; intros H; [rewrite H; apply Reqb_refl|apply Reqb_false; lra]. Qed.
  Lemma wor_end {A} (x : ST (World.world num) A) s w a w' : x w = (Ok a, w') -> wor x (s, w) = (Ok a, (s, w')).
  Proof. intros E. unfold wor. cbn [fst snd]. rewrite E. reflexivity. Qed.
  Lemma sums_true g (c : scase (num:=num)) o s : In c (scases (num:=num)) -> masses_ok (sum_massless o) s -> never_zero st eps s ->
    exists s', sum_pass (num:=num) g c o s = (Ok (all_true (sum_checks o)), s') /\ later st eps s s'.
  Proof.
    intros Hc HM HZ. destruct (draw_legs st eps (sum_massless o) s HZ HM) as (legs & s1 & ED & HL & G & HK).
    destruct (kinds_nth _ _ HK) as (EL & KN). cbn [sum_massless length] in EL, KN.
    pose proof (KN 0%nat ltac:(lia)) as K0. pose proof (KN 1%nat ltac:(lia)) as K1. pose proof (KN 2%nat ltac:(lia)) as K2. cbn [nth sum_massless] in K0, K1, K2.
    destruct (make_all_eval st eps (Rlt_le _ _ He) g legs (shells _ G)) as (w1 & E1 & W1).
    destruct (make_sps_eval st eps legs [sc_1 c; sc_2 c; sc_prod c] w1) as (w2 & E2 & W2).
    { clear - Hc EL K1. unfold of_kind in K1. repeat (destruct Hc as [<-|Hc]; [cbn [sc_1 sc_2 sc_prod];
        repeat (apply Forall_cons; [split; [intros a Ha; cbn in Ha; lia|split; cbn; intros; (reflexivity || lra)]|]); apply Forall_nil|]). destruct Hc. }
    { exact W1. }
    destruct (scase_true c legs Hc EL G K1 w2 W2) as (w3 & E3 & _).
    rewrite (kind_Reqb _ _ K0), (kind_Reqb _ _ K2) in E3.
    exists s1. split; [|exact HL]. unfold sum_pass. apply (local_ok st eps _ _ _ _ w3).
    rewrite (rng_step st eps _ _ s _ _ s1 ED), (wor_step st eps _ _ s1 _ _ w1 E1), (wor_step st eps _ _ s1 _ _ w2 E2).
    cbv zeta. rewrite !mass_md. exact (wor_end _ _ _ _ _ E3).
  Qed.

  (** *** momentum conservation *)
  Lemma dirac_left m q1 s t q2 : on_shell m q1 -> 0 <= v_0 q1 -> good_spin m s ->
    rchain false (arg s true) q1 [q1] t q2 = Cmult (RtoC (Rabs m)) (rchain true (arg s true) q1 [] t q2).
  Proof.
    intros S P G. unfold ChainReal.rchain. cbn [rmats negb length]. rewrite apm_cons. unfold apm. cbn [fold_right].
    unfold right_side, left_side. cbn [Nat.even Bool.eqb]. rewrite <- dot_vm.
    destruct s as [j|]; cbn [arg spv].
    - pose proof (ma_dirac4 _ _ _ _ _ _ _ _ _ (massive_algebra_real st eps m q1 S P) j true (proj2 G)) as D. unfold rsp in D.
      rewrite D.
      match goal with |- cv_dot (cv_scale _ ?y) ?x = _ => generalize x y end. intros; to_reals; ring.
    - cbn in G. subst m. pose proof (ml_dirac4 _ _ _ _ _ _ _ _ (massless_algebra_real st eps q1 S P)) as D.
      rewrite D, Rabs_R0.
      match goal with |- cv_dot _ ?x = Cmult _ (cv_dot ?y _) => generalize x y end. intros; to_reals; ring.
  Qed.
  Lemma dirac_right m q1 s t q2 : on_shell m q2 -> 0 <= v_0 q2 -> good_spin m t ->
    rchain false s q1 [q2] (arg t true) q2 = Copp (Cmult (RtoC (Rabs m)) (rchain false s q1 [] (arg t true) q2)).
  Proof.
    intros S P G. unfold ChainReal.rchain. cbn [rmats negb length]. rewrite apm_cons. unfold apm. cbn [fold_right].
    unfold right_side, left_side. cbn [Nat.even Bool.eqb].
    destruct t as [j|]; cbn [arg spv].
    - pose proof (ma_dirac1 _ _ _ _ _ _ _ _ _ (massive_algebra_real st eps m q2 S P) j true (proj2 G)) as D. unfold rsp in D.
      rewrite D, dot_rscale, RtoC_opp. ring.
    - cbn in G. subst m. pose proof (ml_dirac1 _ _ _ _ _ _ _ _ (massless_algebra_real st eps q2 S P)) as D.
      rewrite D, Rabs_R0.
      match goal with |- cv_dot ?x _ = Copp (Cmult _ (cv_dot _ ?y)) => generalize x y end. intros; to_reals; ring.
  Qed.
  (** the momenta add up to nothing *)
  Definition balanced (q1 q2 q3 q4 : rmom) : Prop :=
    v_0 q1 + v_0 q2 + v_0 q3 + v_0 q4 = 0 /\ v_1 q1 + v_1 q2 + v_1 q3 + v_1 q4 = 0 /\
    v_2 q1 + v_2 q2 + v_2 q3 + v_2 q4 = 0 /\ v_3 q1 + v_3 q2 + v_3 q3 + v_3 q4 = 0.
  Lemma fourth_balanced (q1 q2 q3 : rmom) : balanced q1 q2 q3 (fourth (num:=num) q1 q2 q3).
  Proof.
    destruct q1 as [a0 a1 a2 a3], q2 as [b0 b1 b2 b3], q3 as [c0 c1 c2 c3]. unfold balanced, fourth. cbn [v_0 v_1 v_2 v_3].
    change (@tsub num) with Rminus. change (@topp num) with Ropp. repeat split; ring.
  Qed.
  (** [142> - m2 [12] + m1 <12> + [132> = 0 *)
  Lemma conserved m1 q1 m2 q2 q3 q4 sL sR : on_shell m1 q1 -> 0 <= v_0 q1 -> on_shell m2 q2 -> 0 <= v_0 q2 -> 0 <= m1 -> 0 <= m2 ->
    good_spin m1 sL -> good_spin m2 sR -> balanced q1 q2 q3 q4 ->
    Cplus (Cplus (Cminus (rchain false (arg sL true) q1 [q4] (arg sR true) q2) (Cmult (RtoC m2) (rchain false (arg sL true) q1 [] (arg sR true) q2)))
      (Cmult (RtoC m1) (rchain true (arg sL true) q1 [] (arg sR true) q2))) (rchain false (arg sL true) q1 [q3] (arg sR true) q2) = RtoC 0.
  Proof.
    intros S1 P1 S2 P2 M1 M2 G1 G2 (B0 & B1 & B2 & B3).
    pose proof (rchain_conservation st eps false (arg sL true) q1 [] [] (arg sR true) q2 [(1, q1); (1, q2); (1, q3); (1, q4)]) as K.
    cbn [app cwsum wsum fold_right fst snd] in K.
    rewrite (dirac_left m1 q1 sL _ q2 S1 P1 G1), (dirac_right m2 q1 _ sR q2 S2 P2 G2), (Rabs_pos_eq m1 M1), (Rabs_pos_eq m2 M2) in K.
    specialize (K ltac:(lra) ltac:(lra) ltac:(lra) ltac:(lra)).
    generalize dependent (rchain false (arg sL true) q1 [q4] (arg sR true) q2). intros X4 K. rewrite <- K. ring.
  Qed.
  (** with equal masses, [142> + [241> + [132> + [231> = 0 *)
  Lemma conserved_both m q1 q2 q3 q4 sL sR : on_shell m q1 -> 0 <= v_0 q1 -> on_shell m q2 -> 0 <= v_0 q2 -> 0 <= m ->
    good_spin m sL -> good_spin m sR -> balanced q1 q2 q3 q4 ->
    Cplus (Cplus (Cplus (rchain false (arg sL true) q1 [q4] (arg sR true) q2) (rchain false (arg sR true) q2 [q4] (arg sL true) q1))
      (rchain false (arg sL true) q1 [q3] (arg sR true) q2)) (rchain false (arg sR true) q2 [q3] (arg sL true) q1) = RtoC 0.
  Proof.
    intros S1 P1 S2 P2 M G1 G2 B. pose proof (conserved m q1 m q2 q3 q4 sL sR S1 P1 S2 P2 M M G1 G2 B) as K1.
    assert (B' : balanced q2 q1 q3 q4) by (unfold balanced in *; lra).
    pose proof (conserved m q2 m q1 q3 q4 sR sL S2 P2 S1 P1 M M G2 G1 B') as K2.
    pose proof (rchain_reverse st eps false (arg sL true) q1 [] (arg sR true) q2) as R1. cbn [length Nat.even Bool.eqb rev] in R1.
    pose proof (rchain_reverse st eps true (arg sL true) q1 [] (arg sR true) q2) as R2. cbn [length Nat.even Bool.eqb rev] in R2.
    rewrite R1, R2 in K2.
    transitivity (Cplus (RtoC 0) (RtoC 0)); [|ring]. rewrite <- K1 at 1. rewrite <- K2. ring.
  Qed.
  Lemma fourth_shell m1 q1 m2 q2 m3 q3 : on_shell m1 q1 -> 0 <= v_0 q1 -> on_shell m2 q2 -> 0 <= v_0 q2 -> on_shell m3 q3 -> 0 <= v_0 q3 ->
    on_shell (fourth_mass (num:=num) (fourth (num:=num) q1 q2 q3)) (fourth (num:=num) q1 q2 q3).
  Proof.
    intros S1 P1 S2 P2 S3 P3. unfold on_shell in *.
    pose proof (forward_dot q1 q2 P1 P2) as D12. pose proof (forward_dot q1 q3 P1 P3) as D13. pose proof (forward_dot q2 q3 P2 P3) as D23.
    assert (N : forall m q, minksq q = m * m -> 0 <= mdot q q) by (intros m [a b c d] H; unfold minksq, mdot in *; cbn [v_0 v_1 v_2 v_3] in *; nra).
    pose proof (N _ _ S1) as N1. pose proof (N _ _ S2) as N2. pose proof (N _ _ S3) as N3.
    specialize (D12 N1 N2). specialize (D13 N1 N3). specialize (D23 N2 N3).
    destruct q1 as [a0 a1 a2 a3], q2 as [b0 b1 b2 b3], q3 as [c0 c1 c2 c3]. unfold mdot in *. cbn [v_0 v_1 v_2 v_3] in *.
    unfold fourth_mass, fourth, subsq, minksq. cbn [v_0 v_1 v_2 v_3].
    change (@tsub num) with Rminus. change (@topp num) with Ropp. change (@tmul num) with Rmult. change (@tsqrt num) with sqrt.
    rewrite sqrt_sqrt; [ring|]. nra.
  Qed.
End Rest.

Section Conserve.
  Variables (st : bool) (eps : R).
  Hypothesis He : 0 < eps.
  Notation num := (RN st eps).
  Notation rmom := (vec4 R).
  Notation legs_t := (list (R * rmom)).
  Notation KW := (KW st eps).

  Definition conserve_kinds (o : nat) : list bool := [(3 <? o)%nat; among o [2; 3; 6; 7]%nat; among o [1; 3; 5; 7]%nat].
  Definition conserve_checks (o : nat) : nat := (if (3 <? o)%nat then 1 else 2) * (if among o [2; 3; 6; 7]%nat then 1 else 2).
  Definition conserve_sps : list shape := [Sp false 0 true [3] 1 true; Sp false 0 true [2] 1 true; Sp false 0 true [] 1 true; Sp true 0 true [] 1 true]%nat.
  Lemma three_draws k1 k2 k3 s : masses_ok [k1; k2; k3] s -> never_zero st eps s -> exists (l1 l2 l3 : R * rmom) s1 s2 s3,
    draw_leg (num:=num) k1 s = (Ok l1, s1) /\ draw_leg (num:=num) k2 s1 = (Ok l2, s2) /\ draw_leg (num:=num) k3 s2 = (Ok l3, s3) /\
    later st eps s s3 /\ good_leg l1 /\ good_leg l2 /\ good_leg l3 /\ of_kind k1 (fst l1) /\ of_kind k2 (fst l2) /\ of_kind k3 (fst l3).
  Proof.
    intros HM HZ.
    destruct (draw_leg_eval st eps k1 s HZ) as (l1 & s1 & E1 & ES1 & G1 & K1); [destruct k1; cbn in *; tauto|].
    assert (Z1 : never_zero st eps s1) by (intros n; rewrite ES1; apply HZ).
    assert (M1 : masses_ok [k2; k3] s1) by (rewrite ES1; destruct k1; cbn in *; tauto).
    destruct (draw_leg_eval st eps k2 s1 Z1) as (l2 & s2 & E2 & ES2 & G2 & K2); [destruct k2; cbn in *; tauto|].
    assert (Z2 : never_zero st eps s2) by (intros n; rewrite ES2; apply Z1).
    assert (M2 : masses_ok [k3] s2) by (rewrite ES2; destruct k2; cbn in *; tauto).
    destruct (draw_leg_eval st eps k3 s2 Z2 M2) as (l3 & s3 & E3 & ES3 & G3 & K3).
    assert (N : forall k (a b : stream num), b = (fun j => a ((if k : bool then 3 else 4) + j)%nat) -> later st eps a b)
      by (intros k a b ->; exists (if k then 3 else 4)%nat; reflexivity).
    exists l1, l2, l3, s1, s2, s3. repeat (split; [assumption|]).
    split; [exact (later_trans st eps _ _ _ (later_trans st eps _ _ _ (N k1 _ _ ES1) (N k2 _ _ ES2)) (N k3 _ _ ES3))|]. auto 10.
  Qed.
  Lemma kind_nonneg k m : of_kind k m -> 0 <= m.
  Proof. destruct k; cbn; lra. Qed.
  Lemma conserve_yields (l1 l2 l3 l4 : R * rmom) k1 k2 o : good_leg l1 -> good_leg l2 -> of_kind k1 (fst l1) -> of_kind k2 (fst l2) ->
    balanced (snd l1) (snd l2) (snd l3) (snd l4) -> (o < 8)%nat -> k1 = (3 <? o)%nat -> k2 = among o [2; 3; 6; 7]%nat ->
    yields st eps [l1; l2; l3; l4] conserve_sps
      (let m1 := fst l1 in let m2 := fst l2 in let tol := (@teps num * @tZ num 10000000000)%ld in
       if among o [0; 1]%nat then
         each (fun d => let v := v2 (fst d) (snd d) in
           zero_check tol (cadds (cadds (ap2 (@csub num) (v_of 0 v) (smap (@tmulc num m2) (v_of 2 v))) (smap (@tmulc num m1) (v_of 3 v))) (v_of 1 v)))
           [(-1, -1); (-1, 1); (1, -1); (1, 1)]%Z
       else if among o [2; 3]%nat then
         each (fun d => zero_check tol (cadds (cadds (v_of 0 (v1 d)) (smap (@tmulc num m1) (v_of 3 (v1 d)))) (v_of 1 (v1 d)))) spins
       else if among o [4; 5]%nat then
         each (fun d => zero_check tol (cadds (ap2 (@csub num) (v_of 0 (v1 d)) (smap (@tmulc num m2) (v_of 2 (v1 d)))) (v_of 1 (v1 d)))) spins
       else each (fun _ => zero_check tol (cadds (v_of 0 v0) (v_of 1 v0))) [tt])
      (all_true (conserve_checks o)).
  Proof.
    intros [S1 P1] [S2 P2] K1 K2 B Ho E1 E2. cbv zeta. set (tol := (@teps num * @tZ num 10000000000)%ld).
    assert (HT : tol <> 0) by (change (eps * 10000000000 <> 0); lra).
    set (ll := [l1; l2; l3; l4]).
    assert (V : forall i h sL sR, nth_error conserve_sps i = Some h -> good_spin (fst l1) sL -> good_spin (fst l2) sR ->
       yields st eps ll conserve_sps (v_of i (vcall_of st eps sL sR)) (chain_of st eps ll h sL sR)).
    { intros i h sL sR Hi GL GR. do 4 (destruct i as [|i]; [injection Hi as <-; apply (yields_v st eps ll conserve_sps); [reflexivity|intros a Ha; cbn in Ha; cbn; lia|exact GL|exact GR]|]).
      destruct i; discriminate. }
    assert (C : forall sL sR, good_spin (fst l1) sL -> good_spin (fst l2) sR ->
       Cplus (Cplus (Cminus (chain_of st eps ll (Sp false 0 true [3] 1 true)%nat sL sR) (Cmult (RtoC (fst l2)) (chain_of st eps ll (Sp false 0 true [] 1 true)%nat sL sR)))
         (Cmult (RtoC (fst l1)) (chain_of st eps ll (Sp true 0 true [] 1 true)%nat sL sR))) (chain_of st eps ll (Sp false 0 true [2] 1 true)%nat sL sR) = RtoC 0).
    { intros sL sR GL GR. apply (conserved st eps (fst l1) (snd l1) (fst l2) (snd l2) (snd l3) (snd l4) sL sR);
        try assumption; try lra; [exact (kind_nonneg _ _ K1)|exact (kind_nonneg _ _ K2)]. }
    assert (A2 : forall sL sR, good_spin (fst l1) sL -> good_spin (fst l2) sR -> yields st eps ll conserve_sps
       (zero_check tol (cadds (cadds (ap2 (@csub num) (v_of 0 (vcall_of st eps sL sR)) (smap (@tmulc num (fst l2)) (v_of 2 (vcall_of st eps sL sR))))
          (smap (@tmulc num (fst l1)) (v_of 3 (vcall_of st eps sL sR)))) (v_of 1 (vcall_of st eps sL sR)))) true).
    { intros sL sR GL GR. eapply yields_zero; [exact HT| |exact (C sL sR GL GR)].
      apply yields_ap2; [apply yields_ap2; [apply yields_ap2|]|]; try apply yields_smap; apply V; try reflexivity; assumption. }
    assert (A1 : forall sL sR, fst l2 = 0 -> good_spin (fst l1) sL -> good_spin (fst l2) sR -> yields st eps ll conserve_sps
       (zero_check tol (cadds (cadds (v_of 0 (vcall_of st eps sL sR)) (smap (@tmulc num (fst l1)) (v_of 3 (vcall_of st eps sL sR)))) (v_of 1 (vcall_of st eps sL sR)))) true).
    { intros sL sR Z GL GR. eapply yields_zero; [exact HT| |].
      - apply yields_ap2; [apply yields_ap2|]; try apply yields_smap; apply V; try reflexivity; assumption.
      - pose proof (C sL sR GL GR) as K. rewrite Z in K. rewrite <- K. change (@cadd num) with Cplus. change (@tmulc num) with (fun t z => Cmult (RtoC t) z). cbv beta. ring. }
    assert (A1' : forall sL sR, fst l1 = 0 -> good_spin (fst l1) sL -> good_spin (fst l2) sR -> yields st eps ll conserve_sps
       (zero_check tol (cadds (ap2 (@csub num) (v_of 0 (vcall_of st eps sL sR)) (smap (@tmulc num (fst l2)) (v_of 2 (vcall_of st eps sL sR)))) (v_of 1 (vcall_of st eps sL sR)))) true).
    { intros sL sR Z GL GR. eapply yields_zero; [exact HT| |].
      - apply yields_ap2; [apply yields_ap2|]; try apply yields_smap; apply V; try reflexivity; assumption.
      - pose proof (C sL sR GL GR) as K. rewrite Z in K. rewrite <- K. change (@cadd num) with Cplus. change (@csub num) with Cminus. change (@tmulc num) with (fun t z => Cmult (RtoC t) z). cbv beta. ring. }
    assert (A0 : fst l1 = 0 -> fst l2 = 0 -> yields st eps ll conserve_sps (zero_check tol (cadds (v_of 0 v0) (v_of 1 v0))) true).
    { intros Z1 Z2. eapply yields_zero; [exact HT| |].
      - apply yields_ap2; [exact (V 0%nat _ None None eq_refl Z1 Z2)|exact (V 1%nat _ None None eq_refl Z1 Z2)].
      - pose proof (C None None Z1 Z2) as K. rewrite Z1, Z2 in K. rewrite <- K. change (@cadd num) with Cplus. ring. }
    assert (J1 : (1 = 1 \/ 1 = -1)%Z) by (left; reflexivity). assert (J2 : (-1 = 1 \/ -1 = -1)%Z) by (right; reflexivity).
    destruct o as [|[|[|[|[|[|[|[|o]]]]]]]]; [..|lia].
    all: cbn [among existsb Nat.eqb orb Nat.ltb Nat.leb] in *; subst k1 k2; unfold of_kind in K1, K2;
      match goal with |- yields _ _ _ _ (each _ ?L) _ => apply (yields_each st eps ll conserve_sps _ L) end; repeat apply Forall_cons; try apply Forall_nil; cbn [fst snd].
    all: first
      [ exact (A2 (Some (-1)%Z) (Some (-1)%Z) (conj (Rgt_not_eq _ _ K1) J2) (conj (Rgt_not_eq _ _ K2) J2))
      | exact (A2 (Some (-1)%Z) (Some 1%Z) (conj (Rgt_not_eq _ _ K1) J2) (conj (Rgt_not_eq _ _ K2) J1))
      | exact (A2 (Some 1%Z) (Some (-1)%Z) (conj (Rgt_not_eq _ _ K1) J1) (conj (Rgt_not_eq _ _ K2) J2))
      | exact (A2 (Some 1%Z) (Some 1%Z) (conj (Rgt_not_eq _ _ K1) J1) (conj (Rgt_not_eq _ _ K2) J1))
      | exact (A1 (Some (-1)%Z) None K2 (conj (Rgt_not_eq _ _ K1) J2) K2)
      | exact (A1 (Some 1%Z) None K2 (conj (Rgt_not_eq _ _ K1) J1) K2)
      | exact (A1' None (Some (-1)%Z) K1 K1 (conj (Rgt_not_eq _ _ K2) J2))
      | exact (A1' None (Some 1%Z) K1 K1 (conj (Rgt_not_eq _ _ K2) J1))
      | exact (A0 K1 K2) ].
  Qed.
  Lemma conserve_true g o s : (o < 8)%nat -> masses_ok (conserve_kinds o) s -> never_zero st eps s ->
    exists s', conserve_pass (num:=num) g o s = (Ok (all_true (conserve_checks o)), s') /\ later st eps s s'.
  Proof.
    intros Ho HM HZ. destruct (three_draws _ _ _ s HM HZ) as (l1 & l2 & l3 & s1 & s2 & s3 & E1 & E2 & E3 & HL & G1 & G2 & G3 & K1 & K2 & K3).
    set (q4 := fourth (num:=num) (snd l1) (snd l2) (snd l3)). set (l4 := (fourth_mass (num:=num) q4, q4)).
    destruct (make_all_eval st eps (Rlt_le _ _ He) g [l1; l2; l3; l4]) as (w1 & F1 & W1).
    { destruct G1, G2, G3. repeat constructor; try assumption. cbn [fst snd l4].
      apply (fourth_shell st eps (fst l1) _ (fst l2) _ (fst l3) _); try assumption; apply Rlt_le; assumption. }
    destruct (make_sps_eval st eps [l1; l2; l3; l4] conserve_sps w1) as (w2 & F2 & W2).
    { repeat (apply Forall_cons; [split; [intros a Ha; cbn in Ha; cbn; lia|split; reflexivity]|]); apply Forall_nil. }
    { exact W1. }
    destruct (conserve_yields l1 l2 l3 l4 _ _ o G1 G2 K1 K2 (fourth_balanced st eps _ _ _) Ho eq_refl eq_refl w2 W2) as (w3 & F3 & _).
    exists s3. split; [|exact HL]. unfold conserve_pass. apply (local_ok st eps _ _ _ _ w3).
    rewrite (rng_step st eps _ _ s _ _ s1 E1), (rng_step st eps _ _ s1 _ _ s2 E2), (rng_step st eps _ _ s2 _ _ s3 E3).
    cbv zeta. rewrite (wor_step st eps _ _ s3 _ _ w1 F1), (wor_step st eps _ _ s3 _ _ w2 F2). exact (wor_end st eps _ _ _ _ _ F3).
  Qed.

  Definition symmetric_sps : list shape := [Sp false 0 true [3] 1 true; Sp false 1 true [3] 0 true; Sp false 0 true [2] 1 true; Sp false 1 true [2] 0 true;
     Sp false 0 true [] 1 true; Sp true 0 true [] 1 true]%nat.
  Definition symmetric_kinds (o : nat) : list bool := [among o [2; 3]%nat; among o [2; 3]%nat; among o [1; 3]%nat].
  Definition symmetric_checks (o : nat) : nat := if (o <? 2)%nat then 4 else 1.
  Lemma symmetric_yields (l1 l2 l3 l4 : R * rmom) o : good_leg l1 -> good_leg l2 -> of_kind (among o [2; 3]%nat) (fst l1) -> fst l2 = fst l1 ->
    balanced (snd l1) (snd l2) (snd l3) (snd l4) -> (o < 4)%nat ->
    yields st eps [l1; l2; l3; l4] symmetric_sps
      (let tol := (@teps num * @tZ num 1000000000)%ld in
       let four (v w : ST (store num) (CX num)) := zero_check tol (cadds (cadds (cadds (v_of 0 v) (v_of 1 w)) (v_of 2 v)) (v_of 3 w)) in
       if (o <? 2)%nat then
         each (fun d => four (v2 (fst d) (snd d)) (v2 (snd d) (fst d))) [(-1, -1); (-1, 1); (1, -1); (1, 1)]%Z
       else each (fun _ => four v0 v0) [tt])
      (all_true (symmetric_checks o)).
  Proof.
    intros [S1 P1] [S2 P2] K1 EM B Ho. cbv zeta. set (tol := (@teps num * @tZ num 1000000000)%ld). rewrite EM in S2.
    assert (HT : tol <> 0) by (change (eps * 1000000000 <> 0); lra).
    set (ll := [l1; l2; l3; l4]).
    assert (A : forall sL sR, good_spin (fst l1) sL -> good_spin (fst l1) sR -> yields st eps ll symmetric_sps
      (zero_check tol (cadds (cadds (cadds (v_of 0 (vcall_of st eps sL sR)) (v_of 1 (vcall_of st eps sR sL))) (v_of 2 (vcall_of st eps sL sR))) (v_of 3 (vcall_of st eps sR sL)))) true).
    { intros sL sR GL GR. eapply yields_zero; [exact HT| |].
      - assert (GR' : good_spin (fst l2) sR) by (rewrite EM; exact GR).
        apply yields_ap2; [apply yields_ap2; [apply yields_ap2|]|];
          (eapply (yields_v st eps ll symmetric_sps); [reflexivity|intros a Ha; cbn in Ha; cbn; lia|assumption|assumption]).
      - apply (conserved_both st eps (fst l1) (snd l1) (snd l2) (snd l3) (snd l4) sL sR); try assumption; try lra.
        exact (kind_nonneg _ _ K1). }
    assert (J1 : (1 = 1 \/ 1 = -1)%Z) by (left; reflexivity). assert (J2 : (-1 = 1 \/ -1 = -1)%Z) by (right; reflexivity).
    destruct o as [|[|[|[|o]]]]; [..|lia].
    all: cbn [among existsb Nat.eqb orb Nat.ltb Nat.leb] in *; unfold of_kind in K1;
      match goal with |- yields _ _ _ _ (each _ ?L) _ => apply (yields_each st eps ll symmetric_sps _ L) end; repeat apply Forall_cons; try apply Forall_nil; cbn [fst snd].
    all: first
      [ exact (A (Some (-1)%Z) (Some (-1)%Z) (conj (Rgt_not_eq _ _ K1) J2) (conj (Rgt_not_eq _ _ K1) J2))
      | exact (A (Some (-1)%Z) (Some 1%Z) (conj (Rgt_not_eq _ _ K1) J2) (conj (Rgt_not_eq _ _ K1) J1))
      | exact (A (Some 1%Z) (Some (-1)%Z) (conj (Rgt_not_eq _ _ K1) J1) (conj (Rgt_not_eq _ _ K1) J2))
      | exact (A (Some 1%Z) (Some 1%Z) (conj (Rgt_not_eq _ _ K1) J1) (conj (Rgt_not_eq _ _ K1) J1))
      | exact (A None None K1 K1) ].
  Qed.
  Lemma remassed_shell m (q : rmom) : 0 < m -> let q' := V4 (sqrt (((v_1 q * v_1 q + v_2 q * v_2 q) + v_3 q * v_3 q) + m * m)) (v_1 q) (v_2 q) (v_3 q) in
    on_shell m q' /\ 0 < v_0 q'.
  Proof.
    intros Hm. cbv zeta. unfold on_shell, minksq. cbn [v_0 v_1 v_2 v_3].
    assert (0 < ((v_1 q * v_1 q + v_2 q * v_2 q) + v_3 q * v_3 q) + m * m) by nra.
    split; [rewrite sqrt_sqrt by lra; ring|apply sqrt_lt_R0; assumption].
  Qed.
  Lemma symmetric_true g o s : (o < 4)%nat -> masses_ok (symmetric_kinds o) s -> never_zero st eps s ->
    exists s', symmetric_pass (num:=num) g o s = (Ok (all_true (symmetric_checks o)), s') /\ later st eps s s'.
  Proof.
    intros Ho HM HZ. destruct (three_draws _ _ _ s HM HZ) as (l1 & l2 & l3 & s1 & s2 & s3 & E1 & E2 & E3 & HL & G1 & G2 & G3 & K1 & K2 & K3).
    set (q2 := if among o [2; 3]%nat then snd l2 else
       V4 (sqrt (((v_1 (snd l2) * v_1 (snd l2) + v_2 (snd l2) * v_2 (snd l2)) + v_3 (snd l2) * v_3 (snd l2)) + fst l1 * fst l1)) (v_1 (snd l2)) (v_2 (snd l2)) (v_3 (snd l2)) : rmom).
    set (l2' := (fst l1, q2)).
    assert (G2' : good_leg l2').
    { unfold good_leg, l2', q2. cbn [fst snd]. destruct (among o [2; 3]%nat); cbn in K1, K2.
      - rewrite K1. unfold good_leg in G2. rewrite K2 in G2. exact G2.
      - exact (remassed_shell (fst l1) (snd l2) K1). }
    set (q4 := fourth (num:=num) (snd l1) (snd l2') (snd l3)). set (l4 := (fourth_mass (num:=num) q4, q4)).
    destruct (make_all_eval st eps (Rlt_le _ _ He) g [l1; l2'; l3; l4]) as (w1 & F1 & W1).
    { destruct G1, G2', G3. repeat constructor; try assumption. cbn [fst snd l4].
      apply (fourth_shell st eps (fst l1) _ (fst l2') _ (fst l3) _); try assumption; apply Rlt_le; assumption. }
    destruct (make_sps_eval st eps [l1; l2'; l3; l4] symmetric_sps w1) as (w2 & F2 & W2).
    { repeat (apply Forall_cons; [split; [intros a Ha; cbn in Ha; cbn; lia|split; reflexivity]|]); apply Forall_nil. }
    { exact W1. }
    destruct (symmetric_yields l1 l2' l3 l4 o G1 G2' K1 eq_refl (fourth_balanced st eps _ _ _) Ho w2 W2) as (w3 & F3 & _).
    exists s3. split; [|exact HL]. unfold symmetric_pass. apply (local_ok st eps _ _ _ _ w3).
    rewrite (rng_step st eps _ _ s _ _ s1 E1), (rng_step st eps _ _ s1 _ _ s2 E2). cbv zeta.
    rewrite (rng_step st eps _ _ s2 _ _ s3 E3), (wor_step st eps _ _ s3 _ _ w1 F1), (wor_step st eps _ _ s3 _ _ w2 F2). exact (wor_end st eps _ _ _ _ _ F3).
  Qed.
End Conserve.

(** * The theorems *)
(** tests/sproduct.cpp 32-258: the test cases with test_sproduct.  A pass makes ten checks
    for every call; before each one the momenta are rotated, boosted and rotated again. *)
Theorem C67_products : forall (st : bool) (eps : R) (fuel : nat) (g s : nat -> R) (c : pcase (num:=RN st eps)) (o : nat),
  0 < eps -> In c (pcases (num:=RN st eps)) -> (o < pc_passes c)%nat ->
  masses_ok (pc_massless c o) s -> never_zero st eps s -> timely st eps fuel s ->
  fst (product_pass (num:=RN st eps) fuel g c o s) = Ok (all_true (10 * length (pc_calls c))).
Proof.
  intros st eps fuel g s c o He Hc Ho HM HZ HT. destruct (cases_true st eps He fuel g c o s Hc Ho HM HZ HT) as (s' & E & _). rewrite E. reflexivity.
Qed.
Print Assumptions C67_products.

(** 263-458: the test cases with test_sproduct_spinsum *)
Theorem C67_sums : forall (st : bool) (eps : R) (g s : nat -> R) (c : scase (num:=RN st eps)) (o : nat),
  0 < eps -> In c (scases (num:=RN st eps)) ->
  masses_ok (sum_massless o) s -> never_zero st eps s ->
  fst (sum_pass (num:=RN st eps) g c o s) = Ok (all_true (sum_checks o)).
Proof.
  intros st eps g s c o He Hc HM HZ. destruct (sums_true st eps He g c o s Hc HM HZ) as (s' & E & _). rewrite E. reflexivity.
Qed.
Print Assumptions C67_sums.

(** 463-554: the test cases of momentum conservation *)
Theorem C67_conservation : forall (st : bool) (eps : R) (g s : nat -> R) (o : nat), 0 < eps -> never_zero st eps s ->
  ((o < 8)%nat -> masses_ok (conserve_kinds o) s ->
     fst (conserve_pass (num:=RN st eps) g o s) = Ok (all_true (conserve_checks o))) /\
  ((o < 4)%nat -> masses_ok (symmetric_kinds o) s ->
     fst (symmetric_pass (num:=RN st eps) g o s) = Ok (all_true (symmetric_checks o))).
Proof.
  intros st eps g s o He HZ. split; intros Ho HM.
  - destruct (conserve_true st eps He g o s Ho HM HZ) as (s' & E & _). rewrite E. reflexivity.
  - destruct (symmetric_true st eps He g o s Ho HM HZ) as (s' & E & _). rewrite E. reflexivity.
Qed.
Print Assumptions C67_conservation.

(** ** The whole file, when every number drawn is positive *)
Lemma later_pos st eps (s s' : stream (RN st eps)) : (forall n, 0 < s n) -> later st eps s s' -> forall n, 0 < s' n.
Proof. intros H (k & E) n. rewrite E. apply H. Qed.
Lemma pos_masses kinds : forall s, (forall n, 0 < s n) -> masses_ok kinds s.
Proof. induction kinds as [|[|] k IH]; intros s H; cbn; [exact I|apply IH; intros; apply H|split; [apply H|apply IH; intros; apply H]]. Qed.
Lemma loop_Ok {S} (Inv : S -> Prop) (count : nat -> nat) (body : nat -> ST S (list bool)) n : forall i w, Inv w ->
  (forall j w, (i <= j < i + n)%nat -> Inv w -> exists w', body j w = (Ok (all_true (count j)), w') /\ Inv w') ->
  exists w', times n body i w = (Ok (all_true (list_sum (map count (seq i n)))), w') /\ Inv w'.
Proof.
  induction n as [|n IH]; intros i w HI HB.
  - exists w. split; [reflexivity|exact HI].
  - destruct (HB i w ltac:(lia) HI) as (w1 & E1 & I1). destruct (IH (i + 1)%nat w1 I1) as (w2 & E2 & I2).
    { intros j w' Hj. apply HB. lia. }
    exists w2. split; [|exact I2]. cbn [times]. apply (eq_trans (sbind_Ok _ _ _ _ _ E1)). apply (eq_trans (sbind_Ok _ _ _ _ _ E2)).
    unfold sret. rewrite all_true_app. replace (i + 1)%nat with (Datatypes.S i) by lia. reflexivity.
Qed.
(** the eighteen test cases: the range of o, the checks of a pass, the pass *)
Definition sp_cases (st : bool) (eps : R) (fuel : nat) (g : nat -> R) : list (nat * (nat -> nat) * (nat -> ST (stream (RN st eps)) (list bool))) :=
  map (fun c => (pc_passes c, fun _ => (10 * length (pc_calls c))%nat, product_pass (num:=RN st eps) fuel g c)) pcases ++
  map (fun c => (4%nat, sum_checks, sum_pass (num:=RN st eps) g c)) scases ++
  [(8%nat, conserve_checks, conserve_pass (num:=RN st eps) g); (4%nat, symmetric_checks, symmetric_pass (num:=RN st eps) g)].
Theorem C67_whole : forall (st : bool) (eps : R) (fuel : nat) (g s : nat -> R) (n : nat) count pass,
  0 < eps -> (forall j, 0 < s j) -> timely st eps fuel s ->
  In (n, count, pass) (sp_cases st eps fuel g) ->
  fst (sp_test n pass s) = Ok (all_true (100 * list_sum (map count (seq 0 n)))).
Proof.
  intros st eps fuel g s n count pass He HP HT Hin.
  set (Inv := fun s' : stream (RN st eps) => later st eps s s').
  assert (B : forall o s', (o < n)%nat -> Inv s' -> exists s'', pass o s' = (Ok (all_true (count o)), s'') /\ Inv s'').
  { intros o s' Ho HL. pose proof (later_pos st eps s s' HP HL) as P'.
    assert (Z' : never_zero st eps s') by (intros j; apply Rgt_not_eq, P').
    assert (HR : rng_ready st eps False fuel s') by (apply (later_ready st eps fuel s s' HL); split; [intros j; apply Rgt_not_eq, HP|right; exact HT]).
    destruct HR as (_ & [[]|HT']).
    apply in_app_or in Hin. destruct Hin as [Hin|Hin]; [|apply in_app_or in Hin; destruct Hin as [Hin|Hin]].
    - apply in_map_iff in Hin. destruct Hin as (c & [= <- <- <-] & Hc).
      destruct (cases_true st eps He fuel g c o s' Hc Ho (pos_masses _ _ P') Z' HT') as (s2 & E & L2). exists s2. split; [exact E|exact (later_trans st eps _ _ _ HL L2)].
    - apply in_map_iff in Hin. destruct Hin as (c & [= <- <- <-] & Hc).
      destruct (sums_true st eps He g c o s' Hc (pos_masses _ _ P') Z') as (s2 & E & L2). exists s2. split; [exact E|exact (later_trans st eps _ _ _ HL L2)].
    - destruct Hin as [[= <- <- <-]|[[= <- <- <-]|[]]].
      + destruct (conserve_true st eps He g o s' Ho (pos_masses _ _ P') Z') as (s2 & E & L2). exists s2. split; [exact E|exact (later_trans st eps _ _ _ HL L2)].
      + destruct (symmetric_true st eps He g o s' Ho (pos_masses _ _ P') Z') as (s2 & E & L2). exists s2. split; [exact E|exact (later_trans st eps _ _ _ HL L2)]. }
  unfold sp_test.
  destruct (loop_Ok Inv (fun _ => list_sum (map count (seq 0 n))) (fun _ => times n pass 0) 100 0 s) as (s' & E & _).
  - exists 0%nat. reflexivity.
  - intros j w _ HI. apply (loop_Ok Inv count pass n 0 w HI). intros o w' Ho. apply B. lia.
  - rewrite E. reflexivity.
Qed.
Print Assumptions C67_whole.

(** ** Cases meeting the hypotheses *)
Definition halves : nat -> R := fun _ => / 2.
Lemma halves_pos n : 0 < halves n.
Proof. unfold halves. lra. Qed.
Lemma halves_timely st eps : timely st eps 1 halves.
Proof. intros n. exists 0%nat. split; [lia|]. unfold slow, halves.
  apply Rle_lt_trans with (sqrt (9 / 10 * (9 / 10))); [apply sqrt_le_1_alt; lra|]. rewrite sqrt_square by lra. lra.
Qed.
Example C67_products_ex : fst (product_pass (num:=RN false (/ 1024)) 1 (fun _ => 7) case8 5 halves) = Ok (all_true 10).
Proof.
  exact (C67_products false (/ 1024) 1 (fun _ => 7) halves case8 5 ltac:(lra) ltac:(cbn; tauto) ltac:(cbn; lia)
    (pos_masses _ _ halves_pos) (fun n => Rgt_not_eq _ _ (halves_pos n)) (halves_timely _ _)).
Qed.
(** negative components, masses 1 and 2 *)
Definition mixed : nat -> R := fun n => match n with 0 => 3 | 1 => -4 | 2 => 5 | 3 => 1 | 4 => -6 | 5 => 7 | 6 => 8 | 7 => 2 | 8 => -9 | _ => 11 end.
Lemma mixed_nz st eps : never_zero st eps mixed.
Proof. intros n. unfold mixed. repeat (destruct n as [|n]; [lra|]). lra. Qed.
Example C67_sums_ex : fst (sum_pass (num:=RN false (/ 1024)) (fun _ => 7) (SCase (num:=RN false (/ 1024)) (Sp false 0 true [] 1 true) (Sp false 1 false [] 2 true) (Sp false 0 true [] 2 true) (fun m : R => (- m)%R))%nat 0 mixed) = Ok (all_true 4).
Proof. apply (C67_sums false (/ 1024)); [lra|cbn; tauto|cbn; lra|apply mixed_nz]. Qed.
Example C67_conservation_ex : fst (conserve_pass (num:=RN false (/ 1024)) (fun _ => 7) 1 mixed) = Ok (all_true 4) /\
  fst (symmetric_pass (num:=RN false (/ 1024)) (fun _ => 7) 0 mixed) = Ok (all_true 4).
Proof.
  split.
  - apply (proj1 (C67_conservation false (/ 1024) (fun _ => 7) mixed 1 ltac:(lra) (mixed_nz _ _))); [lia|cbn; lra].
  - apply (proj2 (C67_conservation false (/ 1024) (fun _ => 7) mixed 0 ltac:(lra) (mixed_nz _ _))); [lia|cbn; lra].
Qed.
Example C67_whole_ex : fst (sp_test (num:=RN false (/ 1024)) 8 (conserve_pass (num:=RN false (/ 1024)) (fun _ => 7)) halves) = Ok (all_true 1800).
Proof.
  apply (C67_whole false (/ 1024) 1 (fun _ => 7) halves 8 conserve_checks); [lra|exact halves_pos|apply halves_timely|].
  apply in_or_app. right. apply in_or_app. right. left. reflexivity.
Qed.

(** ** A mass that happens to be 0 ends the test: the second particle is massless then, and
    its lower index in the first product is refused by the constructor *)
Section Zero.
  Variables (st : bool) (eps : R).
  Hypothesis He : 0 <= eps.
  Notation num := (RN st eps).
  Notation legs_t := (list (R * vec4 R)).
  Lemma make_refused (l : legs_t) w h : KW st eps l [] (fun _ => true) w -> fits_in (length l) h -> h_Lu h = true -> md l (h_R h) = 0 -> h_Ru h = false ->
    exists w', doing (WSMake (num:=num) (h_angle h) (h_L h) (h_Lu h) (h_mid h) (h_R h) (h_Ru h)) w = (Exn LowerRight, w').
  Proof.
    intros (g0 & h0 & HP & HK & _) HF HLu HM HRu.
    assert (aL : (h_L h < length l)%nat) by (apply HF; left; reflexivity).
    assert (aR : (h_R h < length l)%nat) by (apply HF; right; left; reflexivity).
    destruct (update_eval (at_ (num:=num) g0 h0) (w_heap w) (tmpl st eps h) (h_L h) (h_R h) (md l (h_L h)) (md l (h_R h)) eq_refl eq_refl) as (h' & sp' & LE & S' & EU).
    { rewrite (addrs_tmpl st eps h _ (same_static_refl _)). exact (known_sub st eps l _ _ h HF HK). }
    { exact (SproductClaims.ready_mass (num:=num) g0 (md l) (qd l) h0 _ _ HP (in_seq_lt _ _ aL)). }
    { exact (SproductClaims.ready_mass (num:=num) g0 (md l) (qd l) h0 _ _ HP (in_seq_lt _ _ aR)). }
    rewrite (massive_md st eps l h0 g0 _ HP aL), (massive_md st eps l h0 g0 _ HP aR) in EU. cbn [tmpl sp_Lupper sp_Rupper] in EU.
    rewrite HLu, HRu, HM, Reqb_refl, Bool.andb_false_r in EU. cbn [negb andb] in EU.
    unfold doing, smap, sbind. cbn [wstep]. unfold sp_construct. fold (tmpl st eps h).
    eexists. rewrite EU. reflexivity.
  Qed.
  Lemma draw_massive (s : stream num) : exists q, draw_leg (num:=num) false s = (Ok (s 3%nat, q), shift st eps 4 s) /\ on_shell (s 3%nat) q.
  Proof.
    exists (drawn st eps s). split; [|apply drawn_shell]. unfold draw_leg, choose_random_momentum, choose_random_ldouble, sbind, sret.
    rewrite (ge_true st eps (tZ (n:=num) 50) (tZ (n:=num) (-50))) by (cbn; lra).
    rewrite (ge_true st eps (tZ (n:=num) 50) (tZ (n:=num) 0)) by (cbn; lra). reflexivity.
  Qed.
End Zero.
Lemma bind_fail {S A B} (x : ST S A) (f : A -> ST S B) s e s1 : x s = (Exn e, s1) -> sbind x f s = (Exn e, s1).
Proof. intros E. unfold sbind. rewrite E. reflexivity. Qed.
Lemma each_cons {S A B} (f : A -> ST S B) a l s b s1 bs s2 : f a s = (Ok b, s1) -> each f l s1 = (Ok bs, s2) -> each f (a :: l) s = (Ok (b :: bs), s2).
Proof. intros E1 E2. cbn [each]. unfold sbind. rewrite E1, E2. reflexivity. Qed.
(** in the first spin sum test the second mass is the eighth number drawn *)
Theorem C67_zero_mass_refuted : exists c, In c (scases (num:=RN false (/ 1024))) /\
  forall g s, s 7%nat = 0 -> fst (sum_pass (num:=RN false (/ 1024)) g c 0 s) = Exn LowerRight.
Proof.
  exists (SCase (num:=RN false (/ 1024)) (Sp false 0 true [] 1 false)%nat (Sp true 1 true [] 2 true)%nat (Sp false 0 true [1] 2 true)%nat (fun _ => 1)).
  split; [left; reflexivity|]. intros g s H7. set (num := RN false (/ 1024)).
  assert (H0 : 0 <= / 1024) by lra.
  destruct (draw_massive false (/ 1024) s) as (q1 & E1 & S1).
  destruct (draw_massive false (/ 1024) (shift false (/ 1024) 4 s)) as (q2 & E2 & S2).
  destruct (draw_massive false (/ 1024) (shift false (/ 1024) 4 (shift false (/ 1024) 4 s))) as (q3 & E3 & S3).
  set (s3 := shift false (/ 1024) 4 (shift false (/ 1024) 4 (shift false (/ 1024) 4 s))) in *.
  set (legs := [(s 3%nat, q1); (shift false (/ 1024) 4 s 3%nat, q2); (shift false (/ 1024) 4 (shift false (/ 1024) 4 s) 3%nat, q3)] : list (R * vec4 R)).
  assert (ED : each (draw_leg (num:=num)) (sum_massless 0) s = (Ok legs, s3)).
  { exact (each_cons _ _ _ _ _ _ _ _ E1 (each_cons _ _ _ _ _ _ _ _ E2 (each_cons _ false [] _ _ _ _ _ E3 (eq_refl (Ok [], s3))))). }
  destruct (make_all_eval false (/ 1024) H0 g legs) as (w1 & F1 & W1); [repeat constructor; assumption|].
  destruct (make_refused false (/ 1024) legs w1 (Sp false 0 true [] 1 false)%nat W1) as (w2 & F2);
    [intros a Ha; cbn in Ha; cbn; lia|reflexivity|exact H7|reflexivity|].
  assert (F3 : make_sps (num:=num) [Sp false 0 true [] 1 false; Sp true 1 true [] 2 true; Sp false 0 true [1] 2 true]%nat w1 = (Exn LowerRight, w2)).
  { exact (bind_fail _ _ _ _ _ (bind_fail _ _ _ _ _ F2)). }
  unfold sum_pass, local. rewrite (rng_step _ _ _ _ s _ _ s3 ED), (wor_step _ _ _ _ s3 _ _ w1 F1).
  cbn [sc_1 sc_2 sc_prod]. unfold sbind, wor. cbn [fst snd]. rewrite F3. reflexivity.
Qed.
Print Assumptions C67_zero_mass_refuted.
