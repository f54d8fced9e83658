(** * The steps of test_sproduct and test_sproduct_spinsum *)
From Coq Require Import Reals Lra Lia QArith Qreals.
From Coquelicot Require Import Complex.
From Verif Require Import Base Scalar Linear Particle ParticleProofs Sproduct RealNum ParticleReal Ready ParticleClaims
  World SpecSproduct SpecChain WorldProofs SproductClaims SpinorReal ChainReal Utilities UtilReal Harness PropsUtil
  TestHarness UnitTests PropsUnit SpTests SpTestsReal SpTestsWorld.
Close Scope Q_scope.
Open Scope R_scope.

Section Run.
  Variables (st : bool) (eps : R).
  Hypothesis He : 0 < eps.
  Notation num := (RN st eps).
  Notation rmom := (vec4 R).
  Notation legs_t := (list (R * rmom)).
  Notation world := (World.world num).
  Notation sproduct := (Sproduct.sproduct num).
  Notation KW := (KW st eps).
  Let He0 : 0 <= eps := Rlt_le _ _ He.

  (** ** setting the momenta *)
  Definition SW (l : legs_t) (done : list nat) (h : heap num) : Prop := forall a, (a < length l)%nat ->
    exists P, nth_error h a = Some P /\ rd (pa_m P) = Ok (md l a) /\ (In a done -> ready (num:=num) (md l a) (qd l a) P).
  Lemma set_each l ps : Forall good_leg l -> Forall (fun a => (a < length l)%nat) ps -> forall done w, SW l done (w_heap w) ->
    exists w', each (fun aq : addr * rmom => doing (WPart (num:=num) (fst aq) (CSetMomentum (num:=num) (snd aq)))) (combine ps (map (qd l) ps)) w
      = (Ok (map (fun _ => tt) (combine ps (map (qd l) ps))), w') /\ w_sps w' = w_sps w /\ SW l (done ++ ps) (w_heap w').
  Proof.
    intros Hl. induction 1 as [|a ps Ha _ IH]; intros done w HS.
    - exists w. rewrite app_nil_r. repeat split. exact HS.
    - destruct (HS a Ha) as (P & E & HM & _).
      assert (HG : good_leg (nth a l (0, V4 0 0 0 0))) by (apply (proj1 (Forall_forall good_leg l) Hl), nth_In, Ha).
      destruct (set_ready st eps He0 (md l a) (qd l a) P HM (proj1 HG)) as (P' & E' & HR).
      set (w1 := mkWorld (hset (w_heap w) a P') (w_sps w)).
      destruct (IH (done ++ [a]) w1) as (w2 & E2 & S2 & H2).
      + intros b Hb. unfold w1. cbn [w_heap]. destruct (Nat.eq_dec a b) as [<-|N].
        * exists P'. split; [exact (hset_same _ _ _ _ E)|]. split; [exact (PropsUnit.ready_mass st eps _ _ _ HR)|auto].
        * rewrite hset_other by exact N. destruct (HS b Hb) as (Q & EQ & MQ & RQ). exists Q. split; [exact EQ|]. split; [exact MQ|].
          intros Hin. apply in_app_or in Hin as [Hin|[Hin|[]]]; [exact (RQ Hin)|contradiction].
      + exists w2. split; [|split; [exact S2|rewrite <- app_assoc in H2; exact H2]].
        cbn [map combine each]. unfold sbind at 1, doing at 1, smap, sbind at 1. cbn [wstep fst snd]. rewrite E. cbn [pstep].
        unfold smap, sbind at 1. rewrite E'. cbn [omap sret]. fold w1.
        exact (sbind_Ok _ _ _ _ _ E2).
  Qed.
  Lemma set_all_eval l l' hs U w ps : KW l hs U w -> length l' = length l -> (forall a, md l' a = md l a) -> Forall good_leg l' ->
    Forall (fun a => (a < length l)%nat) ps -> (forall a, (a < length l)%nat -> In a ps) ->
    exists w', set_all (num:=num) ps (map (qd l') ps) w = (Ok tt, w') /\ KW l' hs (fun _ => false) w'.
  Proof.
    intros (g0 & h0 & HP & HK & HS) EL EM HG HF HC.
    destruct (set_each l' ps HG) with (done := @nil nat) (w := w) as (w' & E & S' & H').
    - rewrite EL. exact HF.
    - intros a Ha. rewrite EL in Ha. destruct (knows_read st eps l h0 g0 _ a HP HK Ha) as (P & E & HM & _).
      exists P. rewrite EM. split; [exact E|]. split; [exact HM|]. intros [].
    - exists w'. split; [exact (eq_trans (sbind_Ok _ _ _ _ _ E) eq_refl)|].
      assert (HR : parts_ready (num:=num) (md l') (qd l') (w_heap w') (seq 0 (length l'))).
      { intros a Ha. apply in_seq in Ha. destruct (H' a ltac:(lia)) as (P & EP & _ & RP). exists P. split; [exact EP|]. apply RP, HC. lia. }
      exists g0, (w_heap w'). split; [exact HR|]. split; [apply (ready_known g0 (md l') (qd l')), HR|].
      rewrite S'. destruct HS as (EL' & HS). split; [exact EL'|]. intros i h Hi. destruct (HS i h Hi) as (sp & E1 & S1 & _).
      exists sp. split; [exact E1|]. split; [exact S1|discriminate].
  Qed.

  (** ** changes of frame *)
  Definition frame (f : rmom -> rmom) : Prop :=
    (forall p q, minkdot (f p) (f q) = minkdot p q) /\ (forall p, 0 <= minkdot p p -> 0 < v_0 p -> 0 < v_0 (f p)).
  Lemma frame_comp f g : frame f -> frame g -> frame (fun p => g (f p)).
  Proof.
    intros [F1 F2] [G1 G2]. split; [intros p q; rewrite G1; apply F1|].
    intros p H1 H2. apply G2; [rewrite F1; exact H1|apply F2; assumption].
  Qed.
  Definition later (s s' : stream num) : Prop := exists n, forall k, s' k = s (n + k)%nat.
  Lemma later_trans s1 s2 s3 : later s1 s2 -> later s2 s3 -> later s1 s3.
  Proof. intros (n & H) (m & K). exists (n + m)%nat. intros k. rewrite K, H. f_equal. lia. Qed.
  Lemma later_ready fuel s s' : later s s' -> rng_ready st eps False fuel s -> rng_ready st eps False fuel s'.
  Proof. intros (n & H) HR. exact (rng_later st eps False fuel s s' n HR H). Qed.
  Lemma rotate_all_eval fuel (l : list rmom) s : rng_ready st eps False fuel s ->
    exists f s', rotate_all (num:=num) l s = (Ok (map f l), s') /\ frame f /\ later s s'.
  Proof.
    intros HR. unfold rotate_all, choose_random_ldouble, sbind.
    rewrite (ge_true st eps (tZ (n:=num) 1000) (tZ (n:=num) 0)) by (cbn; lra). rewrite (ge_true st eps (tD (n:=num) _) (tZ (n:=num) 0)).
    2:{ cbn; unfold Q2R; cbn; lra. }
    cbn [sret]. eexists _, _. split; [reflexivity|]. split; [|exists 4%nat; reflexivity].
    set (u := V3 _ _ _). assert (HU : unit3 u).
    { pose proof (proj1 HR 0%nat) as N. unfold u, unit3. cbn [x_0 x_1 x_2]. cbv beta. revert N.
      generalize (s 0%nat) (s 1%nat) (s 2%nat). change (T num) with R. intros a b c N.
      change (@tsqrt num) with sqrt. change (@tadd num) with Rplus. change (@tmul num) with Rmult. change (@tdiv num) with Rdiv.
      assert (HP : 0 < a * a + b * b + c * c) by (pose proof (Rsqr_pos_lt a N) as K; unfold Rsqr in K; nra).
      set (r := sqrt (a * a + b * b + c * c)). assert (HR0 : 0 < r) by (apply sqrt_lt_R0, HP).
      assert (HRR : r * r = a * a + b * b + c * c) by (apply sqrt_sqrt; lra). clearbody r.
      replace (a / r * (a / r) + b / r * (b / r) + c / r * (c / r)) with ((a * a + b * b + c * c) / (r * r)) by (field; lra).
      rewrite <- HRR. field. lra. }
    clearbody u. split.
    - intros p q. exact (proj1 (proj2 (C26_rotation_preserves st eps u _ HU p q))).
    - intros p _ H. rewrite (proj1 (C26_rotation_preserves st eps u _ HU p p)). exact H.
  Qed.
  Lemma boost_all_eval fuel (l : list rmom) s : rng_ready st eps False fuel s ->
    exists f s', boost_all (num:=num) fuel l s = (Ok (map f l), s') /\ frame f /\ later s s'.
  Proof.
    intros HR. pose proof (draw_moves st eps False fuel (V3 0 0 0) 2 s (proj1 HR)) as DM.
    assert (E : in_time False (fun v g' => x_0 v <> 0 /\ sqrt (x_0 v * x_0 v + x_1 v * x_1 v + x_2 v * x_2 v) < 99 / 100 /\
        exists n, forall k, g' k = s (n + k)%nat) (boost_draw (num:=num) fuel (V3 (tZ (n:=num) 0) (tZ (n:=num) 0) (tZ (n:=num) 0)) (tZ (n:=num) 2) s)).
    { apply DM; [|intros; change (T num) with R in *; lra]. right; right. destruct HR as [_ [[]|HR]]. exact (HR 0%nat). }
    clear DM. unfold boost_all, sbind. destruct (boost_draw _ _ _ s) as [[v|e|u] s']; [|destruct E|destruct u; destruct E].
    destruct E as (N & HB & n & HL). exists (fun p => boost_momentum (num:=num) p v), s'. split; [reflexivity|]. split; [|exists n; exact HL].
    assert (V : 0 < x_0 v * x_0 v + x_1 v * x_1 v + x_2 v * x_2 v < 1).
    { clear - HB N. destruct v as [a b c]. cbn [x_0 x_1 x_2] in *. change (T num) with R in *.
      pose proof (Rsqr_pos_lt a N). pose proof (Rle_0_sqr b). pose proof (Rle_0_sqr c). unfold Rsqr in *. split; [lra|].
      apply sqrt_lt_0_alt. rewrite sqrt_1. lra. }
    split.
    - intros p q. exact (proj1 (C28_boost_preserves st eps v V p q)).
    - intros p H1 H2. destruct (C28_boost_preserves st eps v V p p) as (_ & _ & _ & _ & _ & K). exact (K H1 H2).
  Qed.

  (** ** the momenta in another frame *)
  Record like (l l' : legs_t) : Prop := mkLike {
    lk_len : length l' = length l;
    lk_m : forall a, md l' a = md l a;
    lk_dot : forall a b, (a < length l)%nat -> (b < length l)%nat -> minkdot (qd l' a) (qd l' b) = minkdot (qd l a) (qd l b);
    lk_good : Forall good_leg l' }.
  Lemma like_refl l : Forall good_leg l -> like l l.
  Proof. intros H. constructor; auto. Qed.
  Lemma like_trans l1 l2 l3 : like l1 l2 -> like l2 l3 -> like l1 l3.
  Proof.
    intros [A1 A2 A3 A4] [B1 B2 B3 B4]. constructor; [congruence|intros; congruence| |exact B4].
    intros a b Ha Hb. rewrite B3 by (rewrite A1; assumption). apply A3; assumption.
  Qed.
  Definition in_frame (f : rmom -> rmom) (l : legs_t) : legs_t := map (fun mq => (fst mq, f (snd mq))) l.
  Lemma nth_frame f l a : (a < length l)%nat ->
    nth a (in_frame f l) (0, V4 0 0 0 0) = (fst (nth a l (0, V4 0 0 0 0)), f (snd (nth a l (0, V4 0 0 0 0)))).
  Proof. revert a. induction l as [|mq l IH]; intros [|a] Ha; cbn in *; try lia; [reflexivity|]. apply IH. lia. Qed.
  Lemma qd_frame f l a : (a < length l)%nat -> qd (in_frame f l) a = f (qd l a).
  Proof. intros Ha. unfold qd. rewrite nth_frame by exact Ha. reflexivity. Qed.
  Lemma md_frame f l a : md (in_frame f l) a = md l a.
  Proof.
    unfold md. destruct (Nat.lt_ge_cases a (length l)) as [Ha|Ha].
    - rewrite nth_frame by exact Ha. reflexivity.
    - rewrite !nth_overflow; unfold in_frame; rewrite ?map_length; auto.
  Qed.
  Lemma like_frame f l : frame f -> Forall good_leg l -> like l (in_frame f l).
  Proof.
    intros [F1 F2] HG. constructor.
    - apply map_length.
    - apply md_frame.
    - intros a b Ha Hb. rewrite !qd_frame by assumption. apply F1.
    - unfold in_frame. apply Forall_map. eapply Forall_impl; [|exact HG]. intros [m q] [H1 H2]. cbn [fst snd] in *.
      assert (HS : on_shell m (f q)) by (unfold on_shell in *; rewrite <- H1; exact (F1 q q)). split; [exact HS|].
      apply F2; [|exact H2]. change (0 <= minksq q). rewrite H1. cbn [fst]. nra.
  Qed.

  (** ** the sum *)
  Lemma term_eval l hs U w i1 i2 h1 h2 sL sR : KW l hs U w -> nth_error hs i1 = Some h1 -> nth_error hs i2 = Some h2 ->
    U i1 = true -> U i2 = true -> fits_in (length l) h1 -> fits_in (length l) h2 -> h_L h2 = h_L h1 -> h_R h2 = h_R h1 ->
    good_spin (md l (h_L h1)) sL -> good_spin (md l (h_R h1)) sR ->
    exists w', term (num:=num) i1 i2 (vcall_of st eps sL sR) w = (Ok (fst (Cmult (chain_of st eps l h1 sL sR) (Cconj (chain_of st eps l h2 sL sR)))), w') /\ KW l hs U w'.
  Proof.
    intros HK H1 H2 U1 U2 F1 F2 EL ER GL GR.
    destruct (v_eval st eps l hs U w i1 h1 sL sR HK H1 U1 F1 GL GR) as (w1 & E1 & K1).
    destruct (v_eval st eps l hs U w1 i2 h2 sL sR K1 H2 U2 F2) as (w2 & E2 & K2); [rewrite EL; exact GL|rewrite ER; exact GR|].
    exists w2. split; [|exact K2]. unfold term. apply (eq_trans (sbind_Ok _ _ _ _ _ E1)). apply (eq_trans (sbind_Ok _ _ _ _ _ E2)). reflexivity.
  Qed.
  Lemma sret_eq {S A} (x y : A) (w : S) : x = y -> sret x w = (Ok y, w).
  Proof. now intros ->. Qed.
  Definition n_massive (m : R) : nat := if Reqb m 0 then 0 else 1.
  Definition total (l : legs_t) (h1 h2 : shape) : C :=
    pair_total st eps (h_angle h1) (map (qd l) (h_mid h1)) (h_angle h2) (map (qd l) (h_mid h2))
      (md l (h_L h1)) (qd l (h_L h1)) (md l (h_R h1)) (qd l (h_R h1)).
  Definition pairable (h1 h2 : shape) : Prop :=
    h_L h2 = h_L h1 /\ h_R h2 = h_R h1 /\ h_Lu h1 = true /\ h_Lu h2 = true /\ h_Ru h1 = true /\ h_Ru h2 = true.
  Lemma spin_prod_eval l hs U w i1 i2 h1 h2 : KW l hs U w -> nth_error hs i1 = Some h1 -> nth_error hs i2 = Some h2 ->
    U i1 = true -> U i2 = true -> fits_in (length l) h1 -> fits_in (length l) h2 -> pairable h1 h2 ->
    exists w', spin_prod (num:=num) i1 i2 (n_massive (md l (h_L h1)) + n_massive (md l (h_R h1))) w = (Ok (fst (total l h1 h2)), w') /\ KW l hs U w'.
  Proof.
    intros HK H1 H2 U1 U2 F1 F2 (EL & ER & L1 & L2 & R1 & R2).
    assert (TE : forall sL sR w, KW l hs U w -> good_spin (md l (h_L h1)) sL -> good_spin (md l (h_R h1)) sR ->
      exists w', term (num:=num) i1 i2 (vcall_of st eps sL sR) w = (Ok (fst (Cmult
        (rchain st eps (h_angle h1) (arg sL true) (qd l (h_L h1)) (map (qd l) (h_mid h1)) (arg sR true) (qd l (h_R h1)))
        (Cconj (rchain st eps (h_angle h2) (arg sL true) (qd l (h_L h1)) (map (qd l) (h_mid h2)) (arg sR true) (qd l (h_R h1)))))), w') /\ KW l hs U w').
    { intros sL sR w' HK' GL GR. destruct (term_eval l hs U w' i1 i2 h1 h2 sL sR HK' H1 H2 U1 U2 F1 F2 EL ER GL GR) as (w2 & E & K).
      unfold chain_of in E. rewrite L1, L2, R1, R2, EL, ER in E. exists w2. split; [exact E|exact K]. }
    clear EL ER L1 L2 R1 R2.
    unfold total, pair_total, rsum, spin_prod, n_massive.
    destruct (Reqb (md l (h_L h1)) 0) eqn:E1, (Reqb (md l (h_R h1)) 0) eqn:E2; cbn [Nat.add Nat.eqb map add_up fst snd].
    - apply Reqb_true in E1, E2.
      destruct (TE None None w HK E1 E2) as (w1 & T1 & K1). exists w1. split; [|exact K1].
      apply (eq_trans (sbind_Ok _ _ _ _ _ T1)). cbn [arg]. apply sret_eq. exact (Rplus_0_l _).
    - apply Reqb_true in E1. apply Reqb_false in E2.
      destruct (TE None (Some (-1)%Z) w HK E1 (conj E2 (or_intror eq_refl))) as (w1 & T1 & K1).
      destruct (TE None (Some 1%Z) w1 K1 E1 (conj E2 (or_introl eq_refl))) as (w2 & T2 & K2).
      exists w2. split; [|exact K2]. apply (eq_trans (sbind_Ok _ _ _ _ _ T1)). apply (eq_trans (sbind_Ok _ _ _ _ _ T2)).
      cbn [arg]. apply sret_eq. exact (f_equal (fun x => x + _) (Rplus_0_l _)).
    - apply Reqb_false in E1. apply Reqb_true in E2.
      destruct (TE (Some (-1)%Z) None w HK (conj E1 (or_intror eq_refl)) E2) as (w1 & T1 & K1).
      destruct (TE (Some 1%Z) None w1 K1 (conj E1 (or_introl eq_refl)) E2) as (w2 & T2 & K2).
      exists w2. split; [|exact K2]. apply (eq_trans (sbind_Ok _ _ _ _ _ T1)). apply (eq_trans (sbind_Ok _ _ _ _ _ T2)).
      cbn [arg]. apply sret_eq. exact (f_equal (fun x => x + _) (Rplus_0_l _)).
    - apply Reqb_false in E1, E2.
      destruct (TE (Some (-1)%Z) (Some (-1)%Z) w HK (conj E1 (or_intror eq_refl)) (conj E2 (or_intror eq_refl))) as (w1 & T1 & K1).
      destruct (TE (Some (-1)%Z) (Some 1%Z) w1 K1 (conj E1 (or_intror eq_refl)) (conj E2 (or_introl eq_refl))) as (w2 & T2 & K2).
      destruct (TE (Some 1%Z) (Some (-1)%Z) w2 K2 (conj E1 (or_introl eq_refl)) (conj E2 (or_intror eq_refl))) as (w3 & T3 & K3).
      destruct (TE (Some 1%Z) (Some 1%Z) w3 K3 (conj E1 (or_introl eq_refl)) (conj E2 (or_introl eq_refl))) as (w4 & T4 & K4).
      exists w4. split; [|exact K4]. apply (eq_trans (sbind_Ok _ _ _ _ _ T1)). apply (eq_trans (sbind_Ok _ _ _ _ _ T2)).
      apply (eq_trans (sbind_Ok _ _ _ _ _ T3)). apply (eq_trans (sbind_Ok _ _ _ _ _ T4)).
      cbn [arg]. apply sret_eq. exact (eq_trans (f_equal (fun x => x + _ + _ + _) (Rplus_0_l _)) (Rplus_assoc _ _ _)).
  Qed.

  (** ** test_sproduct *)
  Lemma rng_step {A B} (x : ST (stream num) A) (f : A -> ST (both (num:=num)) B) s w a s' :
    x s = (Ok a, s') -> sbind (rng x) f (s, w) = f a (s', w).
  Proof. intros E. unfold sbind, rng. cbn [fst snd]. rewrite E. reflexivity. Qed.
  Lemma wor_step {A B} (x : ST world A) (f : A -> ST (both (num:=num)) B) s w a w' :
    x w = (Ok a, w') -> sbind (wor x) f (s, w) = f a (s, w').
  Proof. intros E. unfold sbind, wor. cbn [fst snd]. rewrite E. reflexivity. Qed.
  Lemma small_by_0 (k x : R) : k <> 0 -> x = 0 -> small_by (num:=num) k x = true.
  Proof.
    intros Hk ->. unfold small_by. change (@tgtb num) with Rgtb. change (@tabs num) with Rabs. apply Rgtb_true.
    rewrite Rabs_R0. apply Rlt_gt, Rabs_pos_lt, Hk.
  Qed.

  Section Test.
    Variables (fuel i1 i2 : nat) (hs : list shape) (h1 h2 : shape) (l0 : legs_t) (expected : R) (factor : Z) (ps : list nat).
    Hypothesis H1 : nth_error hs i1 = Some h1.
    Hypothesis H2 : nth_error hs i2 = Some h2.
    Hypothesis F1 : fits_in (length l0) h1.
    Hypothesis F2 : fits_in (length l0) h2.
    Hypothesis HP : pairable h1 h2.
    Hypothesis HF : factor <> 0%Z.
    Hypothesis HA : Forall (fun a => (a < length l0)%nat) ps.
    Hypothesis HC : forall a, (a < length l0)%nat -> In a ps.
    Hypothesis HE : forall l, like l0 l -> fst (total l h1 h2) = expected.
    Let ni := (n_massive (md l0 (h_L h1)) + n_massive (md l0 (h_R h1)))%nat.
    Lemma ready_index l h : h_Lu h = true -> h_Ru h = true -> index_ok l h.
    Proof. intros A B. split; auto. Qed.
    Definition loop_inv (s0 : stream num) (_ : nat) (b : both (num:=num)) : Prop := later s0 (fst b) /\
      exists l U, like l0 l /\ KW l hs U (snd b) /\ U i1 = true /\ U i2 = true.
    Lemma updates l U w : like l0 l -> KW l hs U w -> exists U' w1 w2,
      doing (WUpdate (num:=num) i1) w = (Ok tt, w1) /\ doing (WUpdate (num:=num) i2) w1 = (Ok tt, w2) /\ KW l hs U' w2 /\ U' i1 = true /\ U' i2 = true.
    Proof.
      intros HL HK. destruct HP as (_ & _ & L1 & L2 & R1 & R2).
      destruct (update_sp st eps l hs U w i1 h1 HK H1) as (w1 & E1 & K1); [rewrite (lk_len _ _ HL); exact F1|exact (ready_index _ _ L1 R1)|].
      destruct (update_sp st eps l hs _ w1 i2 h2 K1 H2) as (w2 & E2 & K2); [rewrite (lk_len _ _ HL); exact F2|exact (ready_index _ _ L2 R2)|].
      eexists _, w1, w2. split; [exact E1|]. split; [exact E2|]. split; [exact K2|]. cbv beta. rewrite !Nat.eqb_refl, orb_true_r. auto.
    Qed.
    Lemma step_true orig lo s0 j b : rng_ready st eps False fuel s0 -> like l0 lo -> orig = map (qd lo) ps -> loop_inv s0 j b ->
      exists b', product_step (num:=num) fuel i1 i2 ni ps orig expected (teps (n:=num) * tZ (n:=num) 100000000 * tZ (n:=num) factor)%ld j b
        = (Ok (all_true 1), b') /\ loop_inv s0 (j + 1) b'.
    Proof.
      intros HR HLo -> [HS (l & U & HL & HK & U1 & U2)]. destruct b as [s w]. cbn [fst snd] in *.
      destruct (spin_prod_eval l hs U w i1 i2 h1 h2 HK H1 H2 U1 U2) as (w1 & E1 & K1);
        [rewrite (lk_len _ _ HL); exact F1|rewrite (lk_len _ _ HL); exact F2|exact HP|].
      rewrite !(lk_m _ _ HL) in E1. fold ni in E1.
      destruct (rotate_all_eval fuel (map (qd lo) ps) s (later_ready _ _ _ HS HR)) as (f1 & s1 & R1 & Fr1 & L1).
      pose proof (later_trans _ _ _ HS L1) as HS1.
      destruct (boost_all_eval fuel (map f1 (map (qd lo) ps)) s1 (later_ready _ _ _ HS1 HR)) as (f2 & s2 & R2 & Fr2 & L2).
      pose proof (later_trans _ _ _ HS1 L2) as HS2.
      destruct (rotate_all_eval fuel (map f2 (map f1 (map (qd lo) ps))) s2 (later_ready _ _ _ HS2 HR)) as (f3 & s3 & R3 & Fr3 & L3).
      pose proof (later_trans _ _ _ HS2 L3) as HS3.
      set (f := fun p => f3 (f2 (f1 p))).
      assert (Fr : frame f) by exact (frame_comp _ _ (frame_comp _ _ Fr1 Fr2) Fr3).
      pose proof (like_frame f lo Fr (lk_good _ _ HLo)) as HLf. pose proof (like_trans _ _ _ HLo HLf) as HL0.
      assert (EQ : map f3 (map f2 (map f1 (map (qd lo) ps))) = map (qd (in_frame f lo)) ps).
      { rewrite !map_map. apply map_ext_in. intros a Ha. rewrite qd_frame; [reflexivity|]. rewrite (lk_len _ _ HLo).
        exact (proj1 (Forall_forall _ _) HA a Ha). }
      rewrite EQ in R3.
      destruct (set_all_eval l (in_frame f lo) hs U w1 ps K1) as (w2 & E2 & K2).
      { rewrite (lk_len _ _ HL0), (lk_len _ _ HL). reflexivity. }
      { intros a. rewrite (lk_m _ _ HL0), (lk_m _ _ HL). reflexivity. }
      { exact (lk_good _ _ HL0). }
      { rewrite (lk_len _ _ HL). exact HA. }
      { rewrite (lk_len _ _ HL). exact HC. }
      destruct (updates _ _ w2 HL0 K2) as (U' & w3 & w4 & E3 & E4 & K4 & U1' & U2').
      exists (s3, w4). split.
      - unfold product_step. rewrite (wor_step _ _ s w _ w1 E1). rewrite (rng_step _ _ s w1 _ s1 R1), (rng_step _ _ s1 w1 _ s2 R2), (rng_step _ _ s2 w1 _ s3 R3).
        rewrite (wor_step _ _ s3 w1 _ w2 E2), (wor_step _ _ s3 w2 _ w3 E3), (wor_step _ _ s3 w3 _ w4 E4). unfold sret, all_true. cbn [repeat].
        rewrite small_by_0; [reflexivity| |].
        + change (eps * 100000000 * IZR factor <> 0). apply IZR_neq in HF. apply Rmult_integral_contrapositive_currified; [lra|exact HF].
        + change (Rabs (fst (total l h1 h2) - expected) = 0). rewrite (HE l HL), Rminus_diag_eq by reflexivity. apply Rabs_R0.
      - split; [exact HS3|]. exists (in_frame f lo), U'. auto.
    Qed.
    Lemma test_true l U s w : rng_ready st eps False fuel s -> like l0 l -> KW l hs U w -> exists s' w' l' U',
      test_sproduct (num:=num) fuel i1 i2 ni ps expected factor (s, w) = (Ok (all_true 10), (s', w')) /\ later s s' /\ like l0 l' /\ KW l' hs U' w'.
    Proof.
      intros HR HL HK. destruct (updates l U w HL HK) as (U0 & w1 & w2 & E1 & E2 & K2 & U1 & U2).
      assert (EG : each (get_all (num:=num)) ps w = (Ok (map (qd l) ps), w)).
      { apply (each_get st eps l hs U); [exact HK|]. rewrite (lk_len _ _ HL). exact HA. }
      unfold test_sproduct. rewrite (wor_step _ _ s w _ w EG), (wor_step _ _ s w _ w1 E1), (wor_step _ _ s w1 _ w2 E2).
      destruct (times_true (loop_inv s) 1 (product_step (num:=num) fuel i1 i2 ni ps (map (qd l) ps) expected (teps (n:=num) * tZ (n:=num) 100000000 * tZ (n:=num) factor)%ld) 10 0 (s, w2))
        as ((s' & w') & E & HS & (l' & U' & HL' & HK' & _ & _)).
      - split; [exists 0%nat; reflexivity|]. exists l, U0. auto.
      - intros j b _ HI. exact (step_true _ l s j b HR HL eq_refl HI).
      - exists s', w', l', U'. cbn [fst snd] in *. auto.
    Qed.
  End Test.
End Run.
