(** * The model of the process classes does what the machine without caches does *)
From Coq Require Import QArith.
From Verif Require Import Base Scalar Linear Integers Particle Sproduct Propagator Process
  ParticleProofs Ready ParticleClaims SpecSproduct WorldProofs Lang LangFrame Pure.
Close Scope Q_scope.
Open Scope st_scope.
Open Scope pres_scope.

Lemma Forall2_len {A B} (R : A -> B -> Prop) l l' : Forall2 R l l' -> length l = length l'.
Proof. induction 1; cbn; congruence. Qed.

(** ** Spinor products over particles in use, from mass and momentum alone *)
Section ReadyD.
  Context {num : Num}.
  Notation T := (T num).
  Notation particle := (particle num).
  Definition fresh (d : T * mom num) : particle := snd (particle_new (fun _ => tZ 0) (snd d) (fst d)).
  Definition sspin (s : option Z) : option (Z * bool) := option_map (fun z => (z, true)) s.

  Variable D : addr -> particle.
  Definition rdy (a : addr) (d : T * mom num) : Prop := ready (fst d) (snd d) (D a).

  Lemma rdy_dval {A} (x : ST particle A) a d : transparent x -> srel x x -> rdy a d ->
    dval D x a = fst (x (fresh d)).
  Proof.
    intros Hx Sx HR. unfold dval. destruct (Hx (D a) (ready_coh _ _ _ HR)) as (H1 & _ & _). rewrite <- H1.
    destruct (ready_transparent x _ _ (D a) Hx HR) as (P0 & P1 & Hm & HS & E). rewrite E.
    destruct (set_momentum_only_mass (snd d) P0 (w_m (Val (fst d)) (particle_default (fun _ => tZ 0)))) as [_ H2].
    { exact Hm. }
    rewrite HS in H2. apply (proj1 (Sx _ _ (H2 eq_refl))).
  Qed.
  Lemma rdy_mass a d : rdy a d -> rd (pa_m (D a)) = Ok (fst d).
  Proof. intros H. exact (ready_pa_m _ _ _ H). Qed.
  Lemma rdy_massive a d : rdy a d -> massive_at D a = negb (teqb (fst d) (tZ 0)).
  Proof. intros H. unfold massive_at. rewrite (rdy_mass a d H). reflexivity. Qed.
  Lemma srel_ul' (lower : bool) : srel (if lower then lmat (num:=num) else umat) (if lower then lmat else umat).
  Proof. destruct lower; [exact (srel_mat LoMat)|exact (srel_mat UpMat)]. Qed.
  Lemma rdy_dmats ps ds : Forall2 rdy ps ds ->
    forall lower, dmats D lower ps = chain_mats lower (map fresh ds).
  Proof.
    induction 1 as [|a d ps ds H HF IH]; intros lower; cbn [dmats chain_mats map]; [reflexivity|].
    rewrite (rdy_dval _ a d (transparent_ul lower) (srel_ul' lower) H), IH. reflexivity.
  Qed.
  Definition rspin (d : T * mom num) (b : bool) : option Z :=
    if teqb (fst d) (tZ 0) then None else Some (spin_of b).
  Lemma rdy_dvalue (sp : sproduct num) aL aR dL dR ds i j :
    rdy aL dL -> rdy aR dR -> Forall2 rdy (sp_mid sp) ds ->
    sp_Lupper sp = true -> sp_Rupper sp = true ->
    dvalue D sp aL aR i j =
    chain (sp_angle sp) (sspin (rspin dL i)) (fresh dL) (map fresh ds) (sspin (rspin dR j)) (fresh dR).
  Proof.
    intros HL HR HM UL UR. unfold dvalue, chain, dend. rewrite (rdy_dmats _ _ HM), UL, UR.
    rewrite (rdy_massive _ _ HL), (rdy_massive _ _ HR), map_length, (Forall2_len _ _ _ HM).
    unfold rspin. destruct (teqb (fst dL) (tZ 0)), (teqb (fst dR) (tZ 0)); cbn [negb sspin option_map end_spinor];
      rewrite ?(rdy_dval _ _ _ (transparent_spinor0 _) (srel_spinor0 _) HL),
        ?(rdy_dval _ _ _ (transparent_spinor0 _) (srel_spinor0 _) HR),
        ?(rdy_dval _ _ _ (transparent_spinor2 _ _ _) (srel_spinor2 _ _ _) HL),
        ?(rdy_dval _ _ _ (transparent_spinor2 _ _ _) (srel_spinor2 _ _ _) HR);
      destruct i, j; reflexivity.
  Qed.

  (** sp_inv only looks at the particles of the product *)
  Variable D' : addr -> particle.
  Lemma dval_ext {A} (x : ST particle A) a : D a = D' a -> dval D x a = dval D' x a.
  Proof. unfold dval. intros ->. reflexivity. Qed.
  Lemma dmats_ext ps : (forall a, In a ps -> D a = D' a) -> forall lower, dmats D lower ps = dmats D' lower ps.
  Proof.
    induction ps as [|a ps IH]; intros H lower; cbn [dmats]; [reflexivity|].
    rewrite (dval_ext _ a) by (apply H; left; reflexivity).
    rewrite IH by (intros b Hb; apply H; right; exact Hb). reflexivity.
  Qed.
  Lemma sp_inv_ext (sp : sproduct num) aL aR :
    (forall a, In a (aL :: aR :: sp_mid sp) -> D a = D' a) -> sp_inv D sp aL aR -> sp_inv D' sp aL aR.
  Proof.
    intros H INV.
    assert (EL : D aL = D' aL) by (apply H; left; reflexivity).
    assert (ER : D aR = D' aR) by (apply H; right; left; reflexivity).
    assert (EM : forall lower, dmats D lower (sp_mid sp) = dmats D' lower (sp_mid sp)).
    { apply dmats_ext. intros a Ha. apply H. right; right; exact Ha. }
    assert (ML : massive_at D' aL = massive_at D aL) by (unfold massive_at; rewrite EL; reflexivity).
    assert (MR : massive_at D' aR = massive_at D aR) by (unfold massive_at; rewrite ER; reflexivity).
    destruct INV as [I1 I2 I3 I4 I5 I6 I7 I8 I9 I10].
    constructor; rewrite <- ?EL, <- ?ER, <- ?EM, ?ML, ?MR; auto.
    intros i j x Hx. rewrite <- (I10 i j x Hx). unfold dvalue, dend.
    rewrite ML, MR, EM. destruct (massive_at D aL), (massive_at D aR); unfold dval; rewrite EL, ER; reflexivity.
  Qed.
End ReadyD.

(** ** update() and v() when the invariant holds always give a value *)
Section Always.
  Context {num : Num}.
  Notation particle := (particle num).
  Notation sproduct := (sproduct num).
  Variable D : addr -> particle.

  Lemma dvalue_ok (sp : sproduct) aL aR i j : sp_inv D sp aL aR -> exists x, dvalue D sp aL aR i j = Ok x.
  Proof.
    intros INV.
    assert (DO : forall d b u a, (exists m, rd (pa_m (D a)) = Ok m) ->
              exists v, dend D d (massive_at D a) b u a = Ok v).
    { intros d b u a Hm. unfold dend. destruct (massive_at D a) eqn:EM.
      - exact (dval_spinor2_ok D d b u a EM).
      - exact (dval_spinor0_ok D d a EM Hm). }
    unfold dvalue. destruct (inv_mats _ _ _ _ INV) as (Ms & EMs & _). rewrite EMs.
    destruct (DO (left_side (sp_angle sp)) i (sp_Lupper sp) aL (inv_mL _ _ _ _ INV)) as (x & ->).
    destruct (DO (right_side (sp_angle sp) (length (sp_mid sp))) j (sp_Rupper sp) aR (inv_mR _ _ _ _ INV)) as (y & ->).
    eexists; reflexivity.
  Qed.

  (** without internal momenta only the masses are needed *)
  Lemma update_nomid (h : heap num) (sp : sproduct) aL aR PL PR mL mR :
    sp_L sp = Some aL -> sp_R sp = Some aR -> sp_mid sp = [] -> sp_Lupper sp = true -> sp_Rupper sp = true ->
    nth_error h aL = Some PL -> pa_m PL = Val mL -> nth_error h aR = Some PR -> pa_m PR = Val mR ->
    fst (sp_update (h, sp)) = Ok tt.
  Proof.
    intros HL HR HM UL UR EL ML ER MR. destruct sp as [L R mid pMat Lm Rm angle Lu Ru prod].
    cbn in HL, HR, HM, UL, UR. subst.
    assert (CL : forall s, call aL (sconst mass) (h, s) = (Ok mL, (h, s))).
    { intros s. unfold call. rewrite EL. unfold sconst, mass. rewrite ML, (hset_id _ _ _ EL). reflexivity. }
    assert (CR : forall s, call aR (sconst mass) (h, s) = (Ok mR, (h, s))).
    { intros s. unfold call. rewrite ER. unfold sconst, mass. rewrite MR, (hset_id _ _ _ ER). reflexivity. }
    assert (E : exists s', sp_update (h, mkSproduct (Some aL) (Some aR) [] pMat Lm Rm angle true true prod)
              = (Ok tt, s')).
    { unfold sp_update. eexists.
      do 4 (etransitivity; [apply sbind_Ok; reflexivity|]).
      etransitivity; [apply sbind_Ok; apply CL|].
      set (bL := negb (teqb mL (tZ 0))).
      etransitivity; [apply (sbind_Ok _ _ _ tt (h, mkSproduct (Some aL) (Some aR) [] pMat bL false angle true true prod));
                      fold bL; destruct bL; reflexivity|].
      etransitivity; [apply sbind_Ok; apply CR|].
      set (bR := negb (teqb mR (tZ 0))).
      etransitivity; [apply (sbind_Ok _ _ _ tt (h, mkSproduct (Some aL) (Some aR) [] pMat bL bR angle true true prod));
                      fold bR; destruct bR; reflexivity|].
      etransitivity; [apply sbind_Ok; reflexivity|]. cbn [sp_Lmassive sp_Rmassive sp_Lupper sp_Rupper sp_mid snd].
      rewrite !andb_false_r. reflexivity. }
    destruct E as (s' & ->). reflexivity.
  Qed.
  (** in the lenient reading any particles will do in the middle *)
  Lemma mat_lenient (P : particle) : strict num = false -> isOk (fst (umat P)) = true /\ isOk (fst (lmat P)) = true.
  Proof.
    intros HS. assert (R : forall c : cell num, exists v, rd c = Ok v).
    { intros [v|v]; cbn; [eauto|]. rewrite HS. eauto. }
    unfold umat, lmat, memo_mat, umat_value, lmat_value, polar. rewrite HS.
    destruct (R (f_p0 P)) as (? & ->). destruct (R (f_p3 P)) as (? & ->).
    destruct (R (pa_pxymag P)) as (? & ->). destruct (R (pa_phi P)) as (? & ->). cbn [obind].
    split; match goal with |- context [pa_mat P ?k] => destruct (pa_mat P k); reflexivity end.
  Qed.
  Lemma call_lenient a (f : ST particle (cmatrix num)) h (sp : sproduct) : (forall P, isOk (fst (f P)) = true) -> (a < length h)%nat ->
    exists m h', call a f (h, sp) = (Ok m, (h', sp)) /\ length h' = length h.
  Proof.
    intros Hf Ha. unfold call. destruct (nth_error h a) as [P|] eqn:E; [|apply nth_error_None in E; lia].
    specialize (Hf P). destruct (f P) as [[m|e|u] P']; try discriminate Hf. exists m, (hset h a P'). split; [reflexivity|].
    clear. revert a. induction h as [|x h IH]; intros [|a]; cbn; auto.
  Qed.
  Lemma mul_rest_lenient ps : strict num = false -> forall lower h (sp : sproduct), forallb (fun a => a <? length h)%nat ps = true ->
    fst (mul_rest lower ps (h, sp)) = Ok tt.
  Proof.
    intros HS. induction ps as [|a ps IH]; intros lower h sp H; cbn [mul_rest]; [reflexivity|].
    cbn [forallb] in H. apply andb_prop in H as [Ha Hp]. apply Nat.ltb_lt in Ha.
    destruct (call_lenient a (if lower then lmat else umat) h sp) as (m & h' & E & EL); [intros P; destruct lower; apply mat_lenient, HS|exact Ha|].
    unfold sbind. rewrite E. cbn [smodify fst snd]. apply IH. rewrite EL. exact Hp.
  Qed.
  Lemma build_lenient angle a ps : strict num = false -> forall h (sp : sproduct),
    forallb (fun a => a <? length h)%nat (a :: ps) = true -> fst (build_pMat angle a ps (h, sp)) = Ok tt.
  Proof.
    intros HS h sp H. cbn [forallb] in H. apply andb_prop in H as [Ha Hp]. apply Nat.ltb_lt in Ha.
    unfold build_pMat. destruct angle.
    - destruct (call_lenient a lmat h sp) as (m & h' & E & EL); [intros P; apply mat_lenient, HS|exact Ha|].
      unfold sbind. rewrite E. cbn [smodify fst snd]. apply mul_rest_lenient; [exact HS|]. rewrite EL. exact Hp.
    - destruct (call_lenient a umat h sp) as (m & h' & E & EL); [intros P; apply mat_lenient, HS|exact Ha|].
      unfold sbind. rewrite E. cbn [smodify fst snd]. apply mul_rest_lenient; [exact HS|]. rewrite EL. exact Hp.
  Qed.
  Lemma update_lenient (h : heap num) (sp : sproduct) aL aR PL PR mL mR : strict num = false ->
    sp_L sp = Some aL -> sp_R sp = Some aR -> sp_Lupper sp = true -> sp_Rupper sp = true ->
    nth_error h aL = Some PL -> pa_m PL = Val mL -> nth_error h aR = Some PR -> pa_m PR = Val mR ->
    forallb (fun a => a <? length h)%nat (sp_mid sp) = true ->
    fst (sp_update (h, sp)) = Ok tt.
  Proof.
    intros HS HL HR UL UR EL ML ER MR HM. destruct sp as [L R mid pMat Lm Rm angle Lu Ru prod].
    cbn in HL, HR, UL, UR, HM. subst.
    assert (CL : forall s, call aL (sconst mass) (h, s) = (Ok mL, (h, s))).
    { intros s. unfold call. rewrite EL. unfold sconst, mass. rewrite ML, (hset_id _ _ _ EL). reflexivity. }
    assert (CR : forall s, call aR (sconst mass) (h, s) = (Ok mR, (h, s))).
    { intros s. unfold call. rewrite ER. unfold sconst, mass. rewrite MR, (hset_id _ _ _ ER). reflexivity. }
    assert (E : exists s0, sp_update (h, mkSproduct (Some aL) (Some aR) mid pMat Lm Rm angle true true prod)
              = match mid with [] => sret tt | a :: ps => build_pMat angle a ps end (h, s0)).
    { unfold sp_update. eexists.
      do 4 (etransitivity; [apply sbind_Ok; reflexivity|]).
      etransitivity; [apply sbind_Ok; apply CL|].
      set (bL := negb (teqb mL (tZ 0))).
      etransitivity; [apply (sbind_Ok _ _ _ tt (h, mkSproduct (Some aL) (Some aR) mid pMat bL false angle true true prod));
                      fold bL; destruct bL; reflexivity|].
      etransitivity; [apply sbind_Ok; apply CR|].
      set (bR := negb (teqb mR (tZ 0))).
      etransitivity; [apply (sbind_Ok _ _ _ tt (h, mkSproduct (Some aL) (Some aR) mid pMat bL bR angle true true prod));
                      fold bR; destruct bR; reflexivity|].
      etransitivity; [apply sbind_Ok; reflexivity|]. cbn [sp_Lmassive sp_Rmassive sp_Lupper sp_Rupper sp_mid sp_angle snd].
      rewrite !andb_false_r. etransitivity; [apply sbind_Ok; reflexivity|]. reflexivity. }
    destruct E as (s0 & ->). destruct mid as [|a ps]; [reflexivity|]. apply build_lenient; assumption.
  Qed.
End Always.

(** ** Refinement

    [n1]: the arithmetic of the model, [n2]: the arithmetic of the machine without caches.
    [tot]: true when the model is to be shown to reach the end as well; false when
    statements are only about runs of the model that do not fail. *)
Section Ref.
  Context {n1 n2 : Num} (tot : bool).
  Variables (RT : T n1 -> T n2 -> Prop) (RD : D n1 -> D n2 -> Prop) (RC : CX n1 -> CX n2 -> Prop).

  Record hom : Prop := mkHom {
    h_tZ : forall z, RT (tZ z) (tZ z);
    h_tD : forall x y, RD x y -> RT (tD x) (tD y);
    h_T : forall a x y x' y', RT x y -> RT x' y' -> RT (aopT a x x') (aopT a y y');
    h_topp : forall x y, RT x y -> RT (topp x) (topp y);
    h_tsqrt : forall x y, RT x y -> RT (tsqrt x) (tsqrt y);
    h_tpow2 : forall x y, RT x y -> RT (tpow2 x) (tpow2 y);
    h_dQ : forall q, RD (dQ q) (dQ q);
    h_D : forall a x y x' y', RD x y -> RD x' y' -> RD (aopD a x x') (aopD a y y');
    h_dopp : forall x y, RD x y -> RD (dopp x) (dopp y);
    h_dsqrt : forall x y, RD x y -> RD (dsqrt x) (dsqrt y);
    h_cmk : forall x y x' y', RT x y -> RT x' y' -> RC (cmk x x') (cmk y y');
    h_cre : forall x y, RC x y -> RT (cre x) (cre y);
    h_cabs : forall x y, RC x y -> RT (cabs x) (cabs y);
    h_C : forall a x y x' y', RC x y -> RC x' y' -> RC (aopC a x x') (aopC a y y');
    h_copp : forall x y, RC x y -> RC (copp x) (copp y);
    h_cconj : forall x y, RC x y -> RC (cconj x) (cconj y);
    h_CT : forall a x y x' y', RC x y -> RT x' y' -> RC (aopCT a x x') (aopCT a y y');
    h_TC : forall a x y x' y', RT x y -> RC x' y' -> RC (aopTC a x x') (aopTC a y y') }.
  Hypothesis H : hom.

  Definition Rvec (v : cvector n1) (w : cvector n2) : Prop := RC (cv0 v) (cv0 w) /\ RC (cv1 v) (cv1 w).
  Definition Rmat (v : cmatrix n1) (w : cmatrix n2) : Prop :=
    RC (m00 v) (m00 w) /\ RC (m01 v) (m01 w) /\ RC (m10 v) (m10 w) /\ RC (m11 v) (m11 w).
  Definition Rmom (p : mom n1) (q : mom n2) : Prop :=
    RT (v_0 p) (v_0 q) /\ RT (v_1 p) (v_1 q) /\ RT (v_2 p) (v_2 q) /\ RT (v_3 p) (v_3 q).
  Definition Rdat (d : T n1 * mom n1) (d' : T n2 * mom n2) : Prop :=
    RT (fst d) (fst d') /\ Rmom (snd d) (snd d').
  Definition Rprop (p : propagator n1) (q : propagator n2) : Prop :=
    RT (pr_m p) (pr_m q) /\ RT (pr_w p) (pr_w q).
  Definition Rret (r : ret n1) (r' : ret n2) : Prop :=
    match r, r' with RtT x, RtT y => RT x y | RtC x, RtC y => RC x y | _, _ => False end.
  Definition RV (t : ty) : val n1 t -> val n2 t -> Prop :=
    match t return val n1 t -> val n2 t -> Prop with
    | yB => eq | yI => eq | yD => RD | yT => RT | yC => RC | yV => Rvec | yM => Rmat
    end.
  Arguments RV {t}.

  Lemma h_c0 : RC c0 c0.
  Proof. apply (h_cmk H); apply (h_tZ H). Qed.
  Lemma h_cT x y : RT x y -> RC (cT x) (cT y).
  Proof. intros. apply (h_cmk H); [assumption|apply (h_tZ H)]. Qed.
  Lemma h_cadd x y x' y' : RC x y -> RC x' y' -> RC (cadd x x') (cadd y y').
  Proof. exact (h_C H Add x y x' y'). Qed.
  Lemma h_cmul x y x' y' : RC x y -> RC x' y' -> RC (cmul x x') (cmul y y').
  Proof. exact (h_C H Mul x y x' y'). Qed.
  Lemma h_tsub x y x' y' : RT x y -> RT x' y' -> RT (tsub x x') (tsub y y').
  Proof. exact (h_T H Sub x y x' y'). Qed.
  Lemma h_tmul x y x' y' : RT x y -> RT x' y' -> RT (tmul x x') (tmul y y').
  Proof. exact (h_T H Mul x y x' y'). Qed.
  Lemma h_tdiv x y x' y' : RT x y -> RT x' y' -> RT (tdiv x x') (tdiv y y').
  Proof. exact (h_T H Div x y x' y'). Qed.

  (** what the machine knows about an outcome *)
  Definition orel {A B} (R : A -> B -> Prop) (x : outcome A) (y : outcome B) : Prop :=
    match y with Ok b => exists a, x = Ok a /\ R a b | _ => True end.
  Lemma orel_same {A} (x : outcome A) : orel eq x x.
  Proof. destruct x; cbn; eauto. Qed.
  Lemma un_hom {a b} (o : unop a b) x y : RV x y -> orel RV (un_sem o x) (un_sem o y).
  Proof.
    destruct o; cbn [RV un_sem orel]; intros Hxy;
      try (eexists; split; [reflexivity|]; subst; auto using (h_dQ H), (h_tZ H), (h_tD H), (h_topp H), (h_dopp H),
             (h_copp H), (h_tsqrt H), (h_dsqrt H), (h_tpow2 H), (h_cre H), (h_cabs H), (h_cconj H), h_cT; fail).
    subst y. apply orel_same.
  Qed.
  Lemma bin_hom {a b c} (o : binop a b c) x y x' y' :
    RV x y -> RV x' y' -> orel RV (bin_sem o x x') (bin_sem o y y').
  Proof.
    destruct o; cbn [RV bin_sem orel]; intros H1 H2;
      try (eexists; split; [reflexivity|]; auto using (h_T H), (h_D H), (h_C H), (h_CT H), (h_TC H), (h_cmk H); fail).
    - subst. apply orel_same.
    - eexists; split; [reflexivity|]. subst. reflexivity.
    - eexists; split; [reflexivity|]. destruct H1 as [? ?], H2 as (? & ? & ? & ?).
      split; cbn; repeat first [apply h_cadd | apply h_cmul | apply h_cT | apply (h_tZ H) | assumption].
    - eexists; split; [reflexivity|]. destruct H1 as [? ?], H2 as [? ?].
      repeat first [apply h_cadd | apply h_cmul | assumption].
  Qed.
  Lemma norm_hom zs : orel RT (spin_normalization_of zs) (spin_normalization_of zs).
  Proof.
    unfold spin_normalization_of, get_spin_normalization.
    assert (K : forall n x y i, RT x y -> orel RT
      (ofor i n (fun i normFactor => let! ds := arr_get zs i in
         if (ds =? 0)%Z then Ok (normFactor / tD (dsqrt (dQ (2 # 1))))%ld else Ok normFactor) x)
      (ofor i n (fun i normFactor => let! ds := arr_get zs i in
         if (ds =? 0)%Z then Ok (normFactor / tD (dsqrt (dQ (2 # 1))))%ld else Ok normFactor) y)).
    { induction n as [|n IH]; intros x y i Hxy; cbn [ofor]; [cbn; eauto|].
      destruct (arr_get zs i) as [z|e|u]; cbn [obind orel]; try exact I.
      destruct (z =? 0)%Z; cbn [obind]; apply IH; [|exact Hxy].
      apply h_tdiv; [exact Hxy|]. apply (h_tD H), (h_dsqrt H), (h_dQ H). }
    apply K, (h_tZ H).
  Qed.
  Lemma den_hom p q r s : Rprop p q -> Rmom r s -> RC (denominator p r) (denominator q s).
  Proof.
    intros [? ?] (? & ? & ? & ?). unfold denominator.
    apply (h_cmk H); repeat first [apply h_tsub | apply h_tmul | apply (h_topp H) | assumption].
  Qed.

  (** *** The oracle *)
  Variable Q : oracle n2.
  Record oracle_ok : Prop := mkOracleOk {
    ok_zero : forall x y b, RT x y -> q_zero Q y = Some b -> teqb x (tZ 0) = b;
    ok_v : forall angle sL dL dL' ds ds' sR dR dR' x,
        Rdat dL dL' -> Rdat dR dR' -> Forall2 Rdat ds ds' ->
        chain angle (sspin sL) (fresh dL) (map fresh ds) (sspin sR) (fresh dR) = Ok x ->
        RC x (q_v Q angle sL dL' ds' sR dR');
    ok_spinor : forall d s dp dp' v, Rdat dp dp' -> end_spinor d (sspin s) (fresh dp) = Ok v ->
        Rvec v (q_spinor Q d s dp');
    ok_mat : forall (upper : bool) dp dp' M, Rdat dp dp' ->
        fst ((if upper then umat else lmat) (fresh dp)) = Ok M -> Rmat M (q_mat Q upper dp');
    ok_accept : forall dp dp', tot = true -> Rdat dp dp' -> q_accept Q (fst dp') (snd dp') = true ->
        fst (particle_new (fun _ => tZ 0) (snd dp) (fst dp)) = Ok tt /\
        isOk (fst (umat (fresh dp))) = true /\ isOk (fst (lmat (fresh dp))) = true;
    ok_midctor : tot = true -> q_midctor Q = true -> strict n1 = false }.
  Hypothesis HQ : oracle_ok.

  (** *** Objects and local variables *)
  Definition stat_is (sp : sproduct n1) (t : sstat) : Prop :=
    sp_L sp = Some (ss_L t) /\ sp_R sp = Some (ss_R t) /\ sp_mid sp = ss_mid t /\ sp_angle sp = ss_angle t /\
    sp_Lupper sp = true /\ sp_Rupper sp = true.
  Definition mats_ok (d : T n1 * mom n1) : Prop :=
    tot = true -> isOk (fst (umat (fresh d))) = true /\ isOk (fst (lmat (fresh d))) = true.

  Record ORD (D : addr -> particle n1) (o : obj n1) (b : pobj n2) : Prop := mkORD {
    or_T : forall x y, b_T b x = Some y -> exists v, o_T o x = Val v /\ RT v y;
    or_J : forall x y, b_T b x = None -> q_junk Q x = Some y -> (tot = true -> strict n1 = false) /\ exists v, o_T o x = Indet v /\ RT v y;
    or_C : forall x y, b_C b x = Some y -> RC (o_C o x) y;
    or_R : forall x y, b_R b x = Some y -> Rprop (o_R o x) y;
    or_len : length (o_heap o) = length (b_P b);
    or_M : forall p m' q', nth_error (b_P b) p = Some (Some m', q') ->
        exists P m, nth_error (o_heap o) p = Some P /\ pa_m P = Val m /\ RT m m';
    or_Q : forall p m' q', nth_error (b_P b) p = Some (Some m', Some q') ->
        exists d, Rdat d (m', q') /\ rdy D p d /\ mats_ok d /\ knows D (o_heap o) p;
    or_S : forall s t u, b_S b s = Some (t, u) -> stat_is (o_S o s) t /\
        (u = true -> isPOk (p_data b (ss_L t)) = true /\ isPOk (p_data b (ss_R t)) = true /\
                     isPOk (p_datas b (ss_mid t)) = true /\ sp_inv D (o_S o s) (ss_L t) (ss_R t)) }.
  Definition OR (o : obj n1) (b : pobj n2) : Prop := exists D, ORD D o b.

  Definition lcell (c : cell n1) (y : option (T n2)) : Prop :=
    match y with Some y => exists v, c = Val v /\ RT v y | None => True end.
  Record LR (l : env n1) (r : penv n2) : Prop := mkLR {
    lr_I : l_I l = r_I r;
    lr_T : forall x, lcell (l_T l x) (r_T r x);
    lr_C : forall x y, r_C r x = Some y -> RC (l_C l x) y;
    lr_aT : forall x, Forall2 lcell (l_aT l x) (r_aT r x);
    lr_aC : forall x, fst (l_aC l x) = fst (r_aC r x) /\ Forall2 RC (snd (l_aC l x)) (snd (r_aC r x)) }.
  Definition SR (s : st n1) (s' : pst n2) : Prop := OR (fst s) (fst s') /\ LR (snd s) (snd s').

  (** *** Results *)
  Definition REF {A S B} (K : A -> S -> B -> Prop) (l : outcome A * S) (r : pres B) : Prop :=
    match r with
    | PNone => True
    | PExn e => match fst l with Exn e' => e' = e \/ tot = false | Ok _ => False | UB _ => tot = false end
    | POk b => match l with (Ok a, s) => K a s b | _ => tot = false end
    end.
  Lemma ref_bind {A A' S B B'} (K : A -> S -> B -> Prop) (K' : A' -> S -> B' -> Prop)
      (x : ST S A) (f : A -> ST S A') (r : pres B) (g : B -> pres B') s :
    REF K (x s) r -> (forall a s' b, K a s' b -> REF K' (f a s') (g b)) -> REF K' (sbind x f s) (pbind r g).
  Proof.
    intros Hx Hf. unfold sbind. destruct r as [|e|b]; cbn in *; [exact I| |].
    - destruct (x s) as [[a|e'|u] s']; cbn in *; auto; contradiction.
    - destruct (x s) as [[a|e'|u] s']; cbn in *.
      + apply Hf, Hx.
      + subst. destruct (g b); cbn; auto.
      + subst. destruct (g b); cbn; auto.
  Qed.
  Lemma ref_lift {A B S A' B'} (R : A -> B -> Prop) (K' : A' -> S -> B' -> Prop)
      (x : outcome A) (y : outcome B) (f : A -> ST S A') (g : B -> pres B') s :
    orel R x y -> (forall a b, R a b -> REF K' (f a s) (g b)) -> REF K' (sbind (slift x) f s) (pbind (pof y) g).
  Proof.
    intros Hx Hf. unfold sbind, slift. destruct y as [b|e|u]; cbn in *; auto.
    destruct Hx as (a & -> & Hab). apply Hf, Hab.
  Qed.
  Lemma ref_final {A B S} (R : A -> B -> Prop) (K : A -> S -> B -> Prop) (x : outcome A) (y : outcome B) s :
    orel R x y -> (forall a b, R a b -> K a s b) -> REF K (slift x s) (pof y).
  Proof. intros Hx HK. destruct y as [b|e|u]; cbn in *; auto. destruct Hx as (a & -> & Hab). cbn. auto. Qed.

  (** *** Atoms and arrays *)
  Lemma atom_ref a l r : LR l r -> match p_atom a r with POk z => atom_sem a l = Ok z | PNone => True | PExn _ => False end.
  Proof.
    intros HL. destruct a; cbn; [|reflexivity]. unfold p_rdI, rdI. rewrite (lr_I _ _ HL). destruct (r_I r x); cbn; auto.
  Qed.
  Lemma atoms_ref la l r : LR l r ->
    match p_atoms la r with POk z => atoms_sem la l = Ok z | PNone => True | PExn _ => False end.
  Proof.
    intros HL. induction la as [|a la IH]; cbn [p_atoms atoms_sem]; [reflexivity|].
    pose proof (atom_ref a l r HL) as K. destruct (p_atom a r); cbn; auto; try contradiction. rewrite K. cbn.
    destruct (p_atoms la r); cbn; auto. rewrite IH. reflexivity.
  Qed.
  Lemma F2_nth {A B} (R : A -> B -> Prop) l l' k b : Forall2 R l l' -> nth_error l' k = Some b ->
    exists a, nth_error l k = Some a /\ R a b.
  Proof.
    intros HF. revert k. induction HF as [|x y l l' Hxy HF IH]; intros [|k]; cbn; intros E; try discriminate.
    - injection E as ->. eauto.
    - apply IH, E.
  Qed.
  Lemma arr_get_ref {A B} (R : A -> B -> Prop) l l' k b : Forall2 R l l' -> nth_error l' k = Some b ->
    exists a, arr_get l k = Ok a /\ R a b.
  Proof. intros HF E. destruct (F2_nth R l l' k b HF E) as (a & E' & Hab). unfold arr_get. rewrite E'. eauto. Qed.
  Lemma arr_set_ref {A B} (R : A -> B -> Prop) l l' k a b : Forall2 R l l' -> R a b ->
    orel (Forall2 R) (arr_set l k a) (arr_set l' k b).
  Proof.
    intros HF Hab. unfold arr_set. pose proof (Forall2_len _ _ _ HF) as EL.
    rewrite EL. destruct (k <? length l')%nat; cbn; [|exact I]. eexists. split; [reflexivity|].
    clear EL. revert k. induction HF as [|x y l l' Hxy HF IH]; intros [|k]; cbn; auto.
  Qed.

  (** *** Reading the state *)
  Lemma data_ref D o b p d' : ORD D o b -> p_data b p = POk d' ->
    exists d, Rdat d d' /\ rdy D p d /\ mats_ok d /\ knows D (o_heap o) p.
  Proof.
    intros HO. unfold p_data. destruct (nth_error (b_P b) p) as [[[m|] [q|]]|] eqn:E; try discriminate.
    intros [= <-]. exact (or_Q _ _ _ HO p m q E).
  Qed.
  Lemma datas_ref D o b ps : ORD D o b -> forall ds', p_datas b ps = POk ds' ->
    exists ds, Forall2 Rdat ds ds' /\ Forall2 (rdy D) ps ds /\ Forall mats_ok ds /\ all_known D (o_heap o) ps.
  Proof.
    intros HO. induction ps as [|p ps IH]; intros ds'; cbn [p_datas].
    - intros [= <-]. exists []. repeat split; auto. intros a [].
    - destruct (p_data b p) as [| |d'] eqn:Ed; cbn; try discriminate.
      destruct (p_datas b ps) as [| |ds1] eqn:Eds; cbn; try discriminate. intros [= <-].
      destruct (data_ref D o b p d' HO Ed) as (d & H1 & H2 & H3 & H4).
      destruct (IH ds1 eq_refl) as (ds & K1 & K2 & K3 & K4).
      exists (d :: ds). repeat split; auto. intros a [<-|Ha]; auto.
  Qed.
  Lemma mass_ref D o b p m' : ORD D o b -> p_mass b p = POk m' ->
    exists P m, nth_error (o_heap o) p = Some P /\ pa_m P = Val m /\ RT m m'.
  Proof.
    intros HO. unfold p_mass. destruct (nth_error (b_P b) p) as [[[m|] q]|] eqn:E; try discriminate.
    intros [= <-]. exact (or_M _ _ _ HO p m q E).
  Qed.

  (** only caches changed *)
  Lemma ORD_heap D o b h' : ORD D o b -> hle (o_heap o) h' -> hlm (o_heap o) h' -> ORD D (u_heap h' o) b.
  Proof.
    intros HO L [M1 M2]. constructor; cbn; try apply HO.
    - rewrite M1. apply (or_len _ _ _ HO).
    - intros p m' q' E. destruct (or_M _ _ _ HO p m' q' E) as (P & m & E1 & E2 & E3).
      destruct (M2 _ _ E1) as (P' & E4 & E5). exists P', m. repeat split; congruence.
    - intros p m' q' E. destruct (or_Q _ _ _ HO p m' q' E) as (d & H1 & H2 & H3 & H4).
      exists d. refine (conj H1 (conj H2 (conj H3 _))). eapply knows_hle; eauto.
  Qed.
  Lemma stat_same sp sp' t : same_static sp sp' -> stat_is sp t -> stat_is sp' t.
  Proof. unfold same_static, stat_is. intuition congruence. Qed.
  Lemma ORD_sprod D o b s sp' : ORD D o b -> same_static (o_S o s) sp' ->
    (forall t, b_S b s = Some (t, true) -> sp_inv D sp' (ss_L t) (ss_R t)) -> ORD D (u_S s sp' o) b.
  Proof.
    intros HO HS HI. constructor; cbn; try apply HO.
    intros s' t u E. unfold upd. destruct (Pos.eqb_spec s s') as [<-|N]; [|apply (or_S _ _ _ HO s' t u E)].
    destruct (or_S _ _ _ HO s t u E) as [K1 K2]. split; [eapply stat_same; eauto|].
    intros ->. destruct (K2 eq_refl) as (K3 & K4 & K5 & _). auto.
  Qed.

  Lemma part_ref {A} D o b p (x : ST (particle n1) A) : ORD D o b -> transparent x -> keeps_m x ->
    knows D (o_heap o) p -> exists o', on_part p x o = (dval D x p, o') /\ ORD D o' b.
  Proof.
    intros HO Hx Hm HK. destruct HK as (P & E & HCoh & HU). unfold on_part. rewrite E.
    destruct (Hx P HCoh) as (X1 & X2 & X3). specialize (Hm P).
    destruct (x P) as [r P'] eqn:EX. cbn in X1, X2, X3, Hm. eexists. split.
    - unfold dval. rewrite <- HU, <- X1. reflexivity.
    - apply ORD_heap; [exact HO| |].
      + intros a Pa Ea. destruct (Nat.eq_dec p a) as [<-|N].
        * rewrite E in Ea. injection Ea as <-. exists P'. split; [eapply hset_same; eauto|auto].
        * exists Pa. rewrite hset_other by exact N. auto.
      + eapply hlm_hset; eauto.
  Qed.

  (** *** s.v(...) *)
  Lemma spin_ok_pm z : spin_ok z = true -> spin_of (z >? 0)%Z = z.
  Proof. unfold spin_ok. intros E. apply orb_prop in E as [E|E]; apply Z.eqb_eq in E; subst; reflexivity. Qed.
  Lemma v_ref D o b s zs : ORD D o b ->
    REF (fun x o' y => RC x y /\ ORD D o' b) (v_sem s zs o) (p_v Q b s zs).
  Proof.
    intros HO. unfold p_v. destruct (b_S b s) as [[t [|]]|] eqn:ES; try exact I.
    destruct (p_data b (ss_L t)) as [|e|dL'] eqn:EL; [exact I|unfold p_data in EL;
      destruct (nth_error (b_P b) (ss_L t)) as [[[?|] [?|]]|]; discriminate|].
    destruct (p_data b (ss_R t)) as [|e|dR'] eqn:ER; [exact I|unfold p_data in ER;
      destruct (nth_error (b_P b) (ss_R t)) as [[[?|] [?|]]|]; discriminate|].
    cbn [pbind].
    destruct (p_datas b (ss_mid t)) as [|e|dm'] eqn:EM; [exact I| |].
    { exfalso. revert EM. clear. induction (ss_mid t) as [|p ps IH]; cbn; [discriminate|].
      unfold p_data. destruct (nth_error (b_P b) p) as [[[?|] [?|]]|]; cbn; try discriminate.
      destruct (p_datas b ps); cbn; auto; discriminate. }
    cbn [pbind].
    destruct (or_S _ _ _ HO s t true ES) as ((S1 & S2 & S3 & S4 & S5 & S6) & K).
    destruct (K eq_refl) as (_ & _ & _ & INV). clear K.
    destruct (data_ref _ _ _ _ _ HO EL) as (dL & L1 & L2 & _ & L4).
    destruct (data_ref _ _ _ _ _ HO ER) as (dR & R1 & R2 & _ & R4).
    destruct (datas_ref _ _ _ _ HO _ EM) as (dm & M1 & M2 & _ & M4).
    assert (HK : all_known D (o_heap o) (sp_addrs (o_S o s))).
    { unfold sp_addrs. rewrite S1, S2, S3. intros a Ha. cbn in Ha. destruct Ha as [<-|[<-|Ha]]; auto. }
    destruct (q_zero Q (fst dL')) as [zL|] eqn:ZL; cbn [pget pbind]; [|exact I].
    destruct (q_zero Q (fst dR')) as [zR|] eqn:ZR; cbn [pget pbind]; [|exact I].
    pose proof (ok_zero HQ _ _ _ (proj1 L1) ZL) as TL. pose proof (ok_zero HQ _ _ _ (proj1 R1) ZR) as TR.
    assert (ML : massive_at D (ss_L t) = negb zL) by (rewrite (rdy_massive D _ _ L2), TL; reflexivity).
    assert (MR : massive_at D (ss_R t) = negb zR) by (rewrite (rdy_massive D _ _ R2), TR; reflexivity).
    assert (M2' : Forall2 (rdy D) (sp_mid (o_S o s)) dm) by (rewrite S3; exact M2).
    assert (AFTER : forall h' sp', hle (o_heap o) h' -> hlm (o_heap o) h' -> same_static (o_S o s) sp' ->
              sp_inv D sp' (ss_L t) (ss_R t) -> ORD D (u_S s sp' (u_heap h' o)) b).
    { intros h' sp' A1 A2 A3 A4. apply (ORD_sprod D (u_heap h' o) b s sp').
      - apply ORD_heap; auto.
      - exact A3.
      - intros t' E. rewrite ES in E. injection E as <-. exact A4. }
    assert (VAL : forall i j sL sR, rspin dL i = sL -> rspin dR j = sR ->
              exists x, dvalue D (o_S o s) (ss_L t) (ss_R t) i j = Ok x /\ RC x (q_v Q (ss_angle t) sL dL' dm' sR dR')).
    { intros i j sL sR Hi Hj. destruct (dvalue_ok D _ _ _ i j INV) as (x & Ex). exists x. split; [exact Ex|].
      rewrite (rdy_dvalue D _ _ _ dL dR dm i j L2 R2 M2' S5 S6), Hi, Hj, S4 in Ex.
      exact (ok_v HQ _ _ _ _ _ _ _ _ _ _ L1 R1 M1 Ex). }
    assert (RL : forall i, rspin dL i = if zL then None else Some (spin_of i)).
    { intros i. unfold rspin. rewrite TL. reflexivity. }
    assert (RR : forall i, rspin dR i = if zR then None else Some (spin_of i)).
    { intros i. unfold rspin. rewrite TR. reflexivity. }
    destruct zs as [|z [|z' [|]]]; cbn [v_sem]; try exact I.
    - pose proof (squiet_v0 (o_heap o) (o_S o s)) as [SQ _].
      destruct (v0_eval D (o_heap o) (o_S o s) _ _ INV HK) as (h' & sp' & A1 & A3 & A4 & E).
      rewrite E in SQ. cbn [fst snd] in SQ. unfold on_sprod. rewrite E, ML, MR.
      destruct zL, zR; cbn [negb orb andb]; try (cbn; auto; fail).
      destruct (VAL false false None None (RL false) (RR false)) as (x & -> & Hx). cbn. auto.
    - pose proof (squiet_v1 z (o_heap o) (o_S o s)) as [SQ _].
      destruct (v1_eval D z (o_heap o) (o_S o s) _ _ INV HK) as (h' & sp' & A1 & A3 & A4 & E).
      rewrite E in SQ. cbn [fst snd] in SQ. unfold on_sprod. rewrite E, ML, MR. clear E.
      unfold spin_res. change (spinb z) with (spin_ok z).
      destruct zL, zR; cbn [negb Bool.eqb]; try (cbn; auto; fail);
        (destruct (spin_ok z) eqn:EO; [|exact I]).
      + destruct (VAL false (z >? 0)%Z None (Some z) (RL _)) as (x & -> & Hx).
        { rewrite RR, (spin_ok_pm _ EO). reflexivity. }
        cbn. auto.
      + destruct (VAL (z >? 0)%Z false (Some z) None) as (x & -> & Hx).
        { rewrite RL, (spin_ok_pm _ EO). reflexivity. }
        { apply RR. }
        cbn. auto.
    - pose proof (squiet_v2 z z' (o_heap o) (o_S o s)) as [SQ _].
      destruct (v2_eval D z z' (o_heap o) (o_S o s) _ _ INV HK) as (h' & sp' & A1 & A3 & A4 & E).
      rewrite E in SQ. cbn [fst snd] in SQ. unfold on_sprod. rewrite E, ML, MR. clear E.
      unfold spin_res. change (spinb z) with (spin_ok z). change (spinb z') with (spin_ok z').
      destruct zL, zR; cbn [negb orb andb]; try (cbn; auto; fail).
      destruct (spin_ok z) eqn:EO; cbn [andb]; [|exact I]. destruct (spin_ok z') eqn:EO'; [|exact I].
      destruct (VAL (z >? 0)%Z (z' >? 0)%Z (Some z) (Some z')) as (x & -> & Hx).
      { rewrite RL, (spin_ok_pm _ EO). reflexivity. }
      { rewrite RR, (spin_ok_pm _ EO'). reflexivity. }
      cbn. auto.
  Qed.

  (** *** Expressions *)
  Variable junk : id -> nat -> T n1.
  Variable call : id -> list (arg n1) -> ST (obj n1) (option (ret n1)).
  Variable pcall : pobj n2 -> id -> list Z -> pres (CX n2).
  Variable CO : pobj n2 -> Prop.
  Hypothesis HC : forall o b m zs, CO b -> OR o b ->
    REF (fun r o' y => (exists x, r = Some (RtC x) /\ RC x y) /\ OR o' b) (call m (map GI zs) o) (pcall b m zs).

  Definition KE {t} (s' : pst n2) (x : val n1 t) (s : st n1) (y : val n2 t) : Prop := RV x y /\ SR s s'.

  Lemma ref_atom {A B} (K : A -> st n1 -> B -> Prop) a f g (s : st n1) (s' : pst n2) : LR (snd s) (snd s') ->
    (forall z, REF K (f z s) (g z)) ->
    REF K (sbind (slift (atom_sem a (snd s))) f s) (pbind (p_atom a (snd s')) g).
  Proof.
    intros HL Hf. pose proof (atom_ref a _ _ HL) as E. unfold sbind, slift.
    destruct (p_atom a (snd s')) as [|e|z]; cbn; auto; [contradiction|]. rewrite E. apply Hf.
  Qed.
  Lemma ref_atoms {A B} (K : A -> st n1 -> B -> Prop) la f g (s : st n1) (s' : pst n2) : LR (snd s) (snd s') ->
    (forall zs, REF K (f zs s) (g zs)) ->
    REF K (sbind (slift (atoms_sem la (snd s))) f s) (pbind (p_atoms la (snd s')) g).
  Proof.
    intros HL Hf. pose proof (atoms_ref la _ _ HL) as E. unfold sbind, slift.
    destruct (p_atoms la (snd s')) as [|e|zs]; cbn; auto; [contradiction|]. rewrite E. apply Hf.
  Qed.
  Lemma ref_getl {A B C} (K : A -> st n1 -> B -> Prop) (p : env n1 -> C) f (s : st n1) r :
    REF K (f (p (snd s)) s) r -> REF K (sbind (getl p) f s) r.
  Proof. exact (fun x => x). Qed.
  Lemma ref_geto {A B C} (K : A -> st n1 -> B -> Prop) (p : obj n1 -> C) f (s : st n1) r :
    REF K (f (p (fst s)) s) r -> REF K (sbind (geto p) f s) r.
  Proof. exact (fun x => x). Qed.
  Lemma read4_ref l l' : Forall2 lcell l l' ->
    match p_read4 l' with POk q => exists p, read4 l = Ok p /\ Rmom p q | PNone => True | PExn _ => False end.
  Proof.
    intros HF. unfold p_read4.
    destruct l' as [|[a|] [|[b|] [|[c|] [|[d|] [|]]]]]; try exact I.
    repeat match goal with X : Forall2 _ _ (_ :: _) |- _ => inversion X; subst; clear X end.
    match goal with X : Forall2 _ _ [] |- _ => inversion X; subst; clear X end.
    repeat match goal with X : lcell _ (Some _) |- _ => destruct X as (? & -> & ?) end.
    cbn. eexists. split; [reflexivity|]. repeat split; assumption.
  Qed.
  Lemma ref_read4 {A B} (K : A -> st n1 -> B -> Prop) l l' f g s : Forall2 lcell l l' ->
    (forall p q, Rmom p q -> REF K (f p s) (g q)) ->
    REF K (sbind (slift (read4 l)) f s) (pbind (p_read4 l') g).
  Proof.
    intros HF Hf. pose proof (read4_ref l l' HF) as E. unfold sbind, slift.
    destruct (p_read4 l') as [|e|q]; cbn; auto; [contradiction|]. destruct E as (p & -> & Hp). apply Hf, Hp.
  Qed.
  Lemma ref_ono {A B C} (K : A -> st n1 -> B -> Prop) (x : ST (obj n1) C) (k : C -> ST (st n1) A) s o' c r :
    x (fst s) = (c, o') -> REF K (sbind (slift c) k (o', snd s)) r -> REF K (sbind (ono x) k s) r.
  Proof. intros E. unfold sbind, ono, slift. rewrite E. destruct c; auto. Qed.

  Lemma eval_ref {t} (e : exp t) : forall s s', SR s s' -> CO (fst s') ->
    REF (KE s') (eval call e s) (peval Q pcall e s').
  Proof.
    induction e; intros w w' HS HCO; cbn [eval peval];
      assert (HO := proj1 HS); assert (HL := proj2 HS).
    - split; [reflexivity|exact HS].
    - split; [apply (h_dQ H)|exact HS].
    - apply ref_getl. unfold p_rdI, slift, rdI. rewrite (lr_I _ _ HL).
      destruct (r_I (snd w') x); cbn; [split; [reflexivity|exact HS]|exact I].
    - apply ref_getl. pose proof (lr_T _ _ HL x) as K. destruct (r_T (snd w') x) as [y|]; cbn; [|exact I].
      destruct K as (v & -> & Hv). cbn. split; [exact Hv|exact HS].
    - pose proof (lr_C _ _ HL x) as K. destruct (r_C (snd w') x) as [y|]; cbn; [|exact I].
      split; [apply K; reflexivity|exact HS].
    - apply ref_geto. destruct HO as (D & HO'). pose proof (or_T _ _ _ HO' x) as K. pose proof (or_J _ _ _ HO' x) as KJ.
      destruct (b_T (fst w') x) as [y|].
      + destruct (K y eq_refl) as (v & -> & Hv). cbn. split; [exact Hv|exact HS].
      + destruct (q_junk Q x) as [y|]; [|exact I]. destruct (KJ y eq_refl eq_refl) as (Ht & v & -> & Hv). cbn.
        destruct (strict n1); [destruct tot; [discriminate (Ht eq_refl)|reflexivity]|]. split; [exact Hv|exact HS].
    - destruct HO as (D & HO'). pose proof (or_C _ _ _ HO' x) as K. destruct (b_C (fst w') x) as [y|]; cbn; [|exact I].
      split; [apply K; reflexivity|exact HS].
    - apply ref_getl. apply ref_atom; [exact HL|]. intros z. unfold idx. destruct (z <? 0)%Z; cbn; [exact I|].
      destruct (nth_error (r_aT (snd w') x) (Z.to_nat z)) as [[y|]|] eqn:E; cbn; try exact I.
      destruct (arr_get_ref lcell _ _ _ _ (lr_aT _ _ HL x) E) as (c & -> & v & -> & Hv). cbn. split; [exact Hv|exact HS].
    - apply ref_getl. apply ref_atoms; [exact HL|]. intros zs. destruct (lr_aC _ _ HL x) as [E1 E2]. rewrite E1.
      destruct (flat_index (fst (r_aC (snd w') x)) zs 0) as [k| |]; cbn; try exact I.
      destruct (nth_error (snd (r_aC (snd w') x)) k) as [y|] eqn:E; cbn; [|exact I].
      destruct (arr_get_ref RC _ _ _ _ E2 E) as (v & -> & Hv). cbn. split; [exact Hv|exact HS].
    - eapply ref_bind; [apply IHe; assumption|]. intros x s1 y [Hxy HS1].
      eapply ref_final; [apply un_hom, Hxy|]. intros; split; assumption.
    - eapply ref_bind; [apply IHe1; assumption|]. intros x s1 y [Hxy HS1].
      eapply ref_bind; [apply IHe2; assumption|]. intros x' s2 y' [Hxy' HS2].
      eapply ref_final; [apply bin_hom; eassumption|]. intros; split; assumption.
    - eapply ref_bind; [apply IHe1; assumption|]. intros x s1 y [Hxy HS1]. cbn in Hxy. subst y.
      destruct x; [apply IHe2; assumption|]. split; [reflexivity|exact HS1].
    - eapply ref_bind; [apply IHe1; assumption|]. intros x s1 y [Hxy HS1]. cbn in Hxy. subst y.
      destruct x; [|apply IHe2; assumption]. split; [reflexivity|exact HS1].
    - apply ref_getl. apply ref_atoms; [exact HL|]. intros zs. destruct HO as (D & HO').
      pose proof (v_ref D _ _ s zs HO') as K. unfold ono.
      destruct (v_sem s zs (fst w)) as [r o']. destruct (p_v Q (fst w') s zs) as [|e|y]; cbn in *; auto.
      destruct r as [x|e|u]; auto. destruct K as [K1 K2]. split; [exact K1|]. split; [exists D; exact K2|exact HL].
    - apply ref_getl. eapply ref_read4; [apply (lr_aT _ _ HL)|]. intros p q Hpq. apply ref_geto.
      destruct HO as (D & HO'). pose proof (or_R _ _ _ HO' r) as K.
      destruct (b_R (fst w') r) as [pr|]; cbn; [|exact I]. split; [apply den_hom; auto|exact HS].
    - apply ref_getl. apply ref_atoms; [exact HL|]. intros zs. specialize (HC _ _ m zs HCO HO).
      unfold sbind, ono. destruct (call m (map GI zs) (fst w)) as [r o'].
      destruct (pcall (fst w') m zs) as [|e|y]; cbn in *; auto.
      + destruct r; auto; contradiction.
      + destruct r as [r|e|u]; auto. destruct HC as ((x & -> & Hx) & HO2). split; [exact Hx|]. split; [exact HO2|exact HL].
    - apply ref_getl. apply ref_atoms; [exact HL|]. intros zs.
      eapply ref_final; [apply orel_same|]. intros a b ->. split; [reflexivity|exact HS].
    - apply ref_getl. apply ref_atoms; [exact HL|]. intros zs.
      eapply ref_final; [apply norm_hom|]. intros a b Hab. split; [exact Hab|exact HS].
    - destruct HO as (D & HO'). destruct (p_data (fst w') p) as [|e|d'] eqn:Ed; cbn; [exact I|
        unfold p_data in Ed; destruct (nth_error (b_P (fst w')) p) as [[[?|] [?|]]|]; discriminate|].
      destruct (data_ref _ _ _ _ _ HO' Ed) as (dp & D1 & D2 & _ & D4).
      destruct (part_ref D _ _ p (spinor0 d) HO' (transparent_spinor0 d) (keeps_spinor0 d) D4) as (o' & E & HO2).
      unfold ono. rewrite E.
      destruct (q_zero Q (fst d')) as [z|] eqn:EZ; cbn; [|exact I].
      pose proof (ok_zero HQ _ _ _ (proj1 D1) EZ) as TZ.
      assert (MM : massive_at D p = negb z) by (rewrite (rdy_massive D _ _ D2), TZ; reflexivity).
      destruct z.
      + destruct (dval_spinor0_ok D d p MM (ex_intro _ _ (rdy_mass D _ _ D2))) as (v & Ev). rewrite Ev. cbn.
        split; [|split; [exists D; exact HO2|exact HL]]. apply (ok_spinor HQ d None dp d' v D1).
        cbn. rewrite <- Ev. symmetry. apply rdy_dval; auto using transparent_spinor0, srel_spinor0.
      + cbn. assert (Ev : dval D (spinor0 d) p = Exn MassNonzero).
        { rewrite (rdy_dval D _ _ _ (transparent_spinor0 d) (srel_spinor0 d) D2).
          rewrite <- (rdy_dval D _ _ _ (transparent_spinor0 d) (srel_spinor0 d) D2).
          unfold dval, spinor0, memo_vec. cbn. rewrite (rdy_mass D _ _ D2). cbn. rewrite TZ. reflexivity. }
        rewrite Ev. cbn. auto.
    - eapply ref_bind; [apply IHe; assumption|]. intros j s1 j' [Hj HS1]. cbn in Hj. subst j'.
      clear HS HO HL. assert (HO := proj1 HS1). assert (HL := proj2 HS1).
      destruct HO as (D & HO'). destruct (p_data (fst w') p) as [|e'|d'] eqn:Ed; cbn; [exact I|
        unfold p_data in Ed; destruct (nth_error (b_P (fst w')) p) as [[[?|] [?|]]|]; discriminate|].
      destruct (data_ref _ _ _ _ _ HO' Ed) as (dp & D1 & D2 & _ & D4).
      destruct (part_ref D _ _ p (spinor1 d j) HO' (transparent_spinor2 d j true) (keeps_spinor2 d j true) D4) as (o' & E & HO2).
      unfold ono. rewrite E.
      destruct (q_zero Q (fst d')) as [z|] eqn:EZ; cbn; [|exact I].
      pose proof (ok_zero HQ _ _ _ (proj1 D1) EZ) as TZ.
      assert (MM : massive_at D p = negb z) by (rewrite (rdy_massive D _ _ D2), TZ; reflexivity).
      destruct (spin_ok j) eqn:EO.
      + destruct z.
        * assert (Ev : dval D (spinor1 d j) p = Exn MassZero).
          { unfold dval, spinor1, spinor2, memo_vec. unfold spin_ok in EO.
            destruct (j =? 1)%Z eqn:E1, (j =? -1)%Z eqn:E2; cbn in EO; try discriminate EO; cbn;
              rewrite (rdy_mass D _ _ D2); cbn; rewrite TZ; reflexivity. }
          rewrite Ev. cbn. auto.
        * pose proof (spin_ok_pm _ EO) as Ej.
          destruct (dval_spinor2_ok D d (j >? 0)%Z true p MM) as (v & Ev). rewrite Ej in Ev.
          unfold spinor1. rewrite Ev. cbn.
          split; [|split; [exists D; exact HO2|exact HL]]. apply (ok_spinor HQ d (Some j) dp d' v D1).
          cbn. rewrite <- Ev. symmetry. apply rdy_dval; auto using transparent_spinor2, srel_spinor2.
      + assert (Ev : dval D (spinor1 d j) p = Exn BadSpin).
        { unfold dval, spinor1, spinor2. unfold spin_ok in EO. apply orb_false_elim in EO as [-> ->]. reflexivity. }
        rewrite Ev. cbn. auto.
    - destruct HO as (D & HO'). destruct (p_data (fst w') p) as [|e|d'] eqn:Ed; cbn; [exact I|
        unfold p_data in Ed; destruct (nth_error (b_P (fst w')) p) as [[[?|] [?|]]|]; discriminate|].
      destruct (data_ref _ _ _ _ _ HO' Ed) as (dp & D1 & D2 & D3 & D4).
      assert (TR : transparent (if upper then umat (num:=n1) else lmat)).
      { destruct upper; [exact (transparent_mat UpMat)|exact (transparent_mat LoMat)]. }
      assert (SRR : srel (if upper then umat (num:=n1) else lmat) (if upper then umat else lmat)).
      { destruct upper; [exact (srel_mat UpMat)|exact (srel_mat LoMat)]. }
      destruct (part_ref D _ _ p _ HO' TR (keeps_mat upper) D4) as (o' & E & HO2).
      unfold ono. rewrite E. rewrite (rdy_dval D _ _ _ TR SRR D2).
      destruct (fst ((if upper then umat else lmat) (fresh dp))) as [M|e|u] eqn:EM.
      + split; [exact (ok_mat HQ upper dp d' M D1 EM)|]. split; [exists D; exact HO2|exact HL].
      + destruct tot eqn:ET; [|reflexivity]. destruct (D3 ET) as [U1 U2]. destruct upper; rewrite EM in *; discriminate.
      + destruct tot eqn:ET; [|reflexivity]. destruct (D3 ET) as [U1 U2]. destruct upper; rewrite EM in *; discriminate.
  Qed.

  (** *** Changing a particle *)
  Lemma pset_length {A} (l : list A) p x : length (pset l p x) = length l.
  Proof. revert p; induction l as [|y l IH]; intros [|p]; cbn; congruence. Qed.
  Lemma pset_same {A} (l : list A) p x : (p < length l)%nat -> nth_error (pset l p x) p = Some x.
  Proof.
    revert p; induction l as [|y l IH]; intros [|p]; cbn; intros Hp; try lia; [reflexivity|]. apply IH. lia.
  Qed.
  Lemma pset_other {A} (l : list A) p x q : p <> q -> nth_error (pset l p x) q = nth_error l q.
  Proof.
    revert p q; induction l as [|y l IH]; intros [|p] [|q] Hp; cbn; try congruence. apply IH. congruence.
  Qed.
  Lemma p_datas_other (b : pobj n2) p d ps : existsb (Nat.eqb p) ps = false -> p_datas (pl_P p d b) ps = p_datas b ps.
  Proof.
    induction ps as [|a ps IH]; cbn [p_datas existsb]; [reflexivity|]. intros E. apply orb_false_elim in E as [E1 E2].
    rewrite (IH E2). unfold p_data. cbn [pl_P b_P]. rewrite pset_other; [reflexivity|].
    apply Nat.eqb_neq, E1.
  Qed.
  Lemma ORD_setp D D' o b p P' m m' q' :
    ORD D o b -> (forall a, a <> p -> D' a = D a) -> (p < length (b_P b))%nat -> pa_m P' = Val m -> RT m m' ->
    (forall q, q' = Some q -> exists d, Rdat d (m', q) /\ rdy D' p d /\ mats_ok d /\ coh P' /\ uncached P' = uncached (D' p)) ->
    ORD D' (u_heap (hset (o_heap o) p P') o) (pl_P p (Some m', q') b).
  Proof.
    intros HO HD Hp Hm Hmm Hq.
    assert (Hp1 : exists P, nth_error (o_heap o) p = Some P).
    { destruct (nth_error (o_heap o) p) as [P|] eqn:E; [eauto|]. apply nth_error_None in E.
      rewrite (or_len _ _ _ HO) in E. lia. }
    destruct Hp1 as (P & EP).
    constructor; cbn; try apply HO.
    - rewrite hset_length, pset_length. apply (or_len _ _ _ HO).
    - intros a x y E. destruct (Nat.eq_dec p a) as [<-|N].
      + rewrite pset_same in E by exact Hp. injection E as <- <-. exists P', m. split; [eapply hset_same; eauto|]. auto.
      + rewrite pset_other in E by exact N. rewrite hset_other by exact N. exact (or_M _ _ _ HO a x y E).
    - intros a x y E. destruct (Nat.eq_dec p a) as [<-|N].
      + rewrite pset_same in E by exact Hp. injection E as <- Eq. destruct (Hq _ Eq) as (d & Q1 & Q2 & Q3 & Q4 & Q5).
        exists d. refine (conj Q1 (conj Q2 (conj Q3 _))). exists P'. split; [eapply hset_same; eauto|]. auto.
      + rewrite pset_other in E by exact N. destruct (or_Q _ _ _ HO a x y E) as (d & Q1 & Q2 & Q3 & (Pa & K1 & K2 & K3)).
        exists d. split; [exact Q1|]. split; [unfold rdy; rewrite HD by congruence; exact Q2|]. split; [exact Q3|].
        exists Pa. rewrite hset_other by exact N. rewrite HD by congruence. auto.
    - intros s t u E. unfold stale in E. destruct (b_S b s) as [[t0 u0]|] eqn:ES; [|discriminate].
      injection E as <- <-. destruct (or_S _ _ _ HO s t0 u0 ES) as [K1 K2]. split; [exact K1|].
      intros E. apply andb_prop in E as [E1 E2]. apply negb_true_iff in E2. destruct (K2 E1) as (K3 & K4 & K5 & K6).
      unfold ss_addrs in E2. cbn [existsb] in E2. apply orb_false_elim in E2 as [E2 E4].
      apply orb_false_elim in E4 as [E3 E4]. apply Nat.eqb_neq in E2, E3.
      change (mkPobj (b_T b) (b_C b) (b_R b) (fun s0 => stale p (b_S b s0)) (pset (b_P b) p (Some m', q')))
        with (pl_P p (Some m', q') b).
      rewrite (p_datas_other b p _ _ E4). unfold p_data in *. cbn [pl_P b_P].
      rewrite !pset_other by congruence. repeat (split; [assumption|]).
      apply (sp_inv_ext D D'); [|exact K6]. intros a Ha. symmetry. apply HD.
      destruct (or_S _ _ _ HO s t0 u0 ES) as [(_ & _ & S3 & _) _].
      cbn in Ha. rewrite S3 in Ha. destruct Ha as [<-|[<-|Ha]]; try congruence.
      intros ->. rewrite <- not_true_iff_false in E4. apply E4. apply existsb_exists. exists p.
      split; [exact Ha|apply Nat.eqb_refl].
  Qed.
  Lemma ORD_mass D o b p P' m m' :
    ORD D o b -> (p <? length (b_P b))%nat = true -> pa_m P' = Val m -> RT m m' ->
    ORD D (u_heap (hset (o_heap o) p P') o) (pl_P p (Some m', None) b).
  Proof. intros HO Hp Hm Hmm. apply Nat.ltb_lt in Hp. eapply ORD_setp; eauto. discriminate. Qed.
  Lemma part_exists D o b p : ORD D o b -> (p <? length (b_P b))%nat = true -> exists P, nth_error (o_heap o) p = Some P.
  Proof.
    intros HO Hp. apply Nat.ltb_lt in Hp. destruct (nth_error (o_heap o) p) as [P|] eqn:E; [eauto|].
    apply nth_error_None in E. rewrite (or_len _ _ _ HO) in E. lia.
  Qed.

  Lemma momentum_ref D o b p m' q q' : ORD D o b -> p_mass b p = POk m' -> Rmom q q' -> q_accept Q m' q' = true ->
    match on_part p (set_momentum q) o with
    | (Ok _, o') => OR o' (pl_P p (Some m', Some q') b)
    | _ => tot = false
    end.
  Proof.
    intros HO EM Hq HA. destruct (mass_ref _ _ _ _ _ HO EM) as (P & m & EP & Em & Hm).
    unfold on_part. rewrite EP. pose proof (keeps_set_momentum q P) as HK.
    assert (EM' : mass P = Ok m) by (unfold mass; rewrite Em; reflexivity).
    pose proof (proj1 (set_momentum_like_fresh (fun _ => tZ 0) q m P EM')) as EF.
    assert (Hd : Rdat (m, q) (m', q')) by (split; assumption).
    destruct (set_momentum q P) as [r P'] eqn:ES. cbn [fst snd] in *.
    destruct r as [[]|e|u].
    - pose proof (ready_set m q P P' EM' ES) as HR.
      exists (fun a => if Nat.eqb a p then P' else D a). apply (ORD_setp D _ o b p P' m m'); auto.
      + intros a Ha. apply Nat.eqb_neq in Ha. rewrite Ha. reflexivity.
      + unfold p_mass in EM. destruct (nth_error (b_P b) p) eqn:E; [|discriminate]. apply nth_error_Some. congruence.
      + congruence.
      + intros q0 [= <-]. exists (m, q). split; [exact Hd|]. unfold rdy. rewrite Nat.eqb_refl.
        split; [exact HR|]. split; [|split; [exact (ready_coh _ _ _ HR)|reflexivity]].
        intros Ht. destruct (ok_accept HQ _ _ Ht Hd HA) as (_ & U1 & U2). auto.
    - destruct tot eqn:Ht; [|reflexivity]. destruct (ok_accept HQ _ _ Ht Hd HA) as (U & _). cbn [fst snd] in U. congruence.
    - destruct tot eqn:Ht; [|reflexivity]. destruct (ok_accept HQ _ _ Ht Hd HA) as (U & _). cbn [fst snd] in U. congruence.
  Qed.

  (** *** update() *)
  Lemma p_data_ok (b : pobj n2) p : match p_data b p with PExn _ => False | _ => True end.
  Proof. unfold p_data. destruct (nth_error (b_P b) p) as [[[?|] [?|]]|]; exact I. Qed.
  Lemma p_datas_ok (b : pobj n2) ps : match p_datas b ps with PExn _ => False | _ => True end.
  Proof.
    induction ps as [|p ps IH]; cbn; [exact I|]. pose proof (p_data_ok b p) as K.
    destruct (p_data b p); cbn; auto. destruct (p_datas b ps); cbn; auto.
  Qed.
  Lemma chain_mats_ok ds : tot = true -> Forall mats_ok ds -> forall lower, isOk (chain_mats lower (map fresh ds)) = true.
  Proof.
    intros Ht. induction 1 as [|d ds Hd HF IH]; intros lower; cbn [map chain_mats]; [reflexivity|].
    destruct (Hd Ht) as [U1 U2]. specialize (IH (negb lower)).
    destruct lower.
    - destruct (fst (lmat (fresh d))); try discriminate. cbn. destruct (chain_mats _ _); try discriminate. reflexivity.
    - destruct (fst (umat (fresh d))); try discriminate. cbn. destruct (chain_mats _ _); try discriminate. reflexivity.
  Qed.
  Lemma update_ref D o b t sp free : ORD D o b -> stat_is sp t -> (tot = true -> free = true -> strict n1 = false) ->
    match p_update b t free with
    | PNone => True
    | PExn _ => False
    | POk u =>
        match sp_update (o_heap o, sp) with
        | (Ok _, (h', sp')) => hle (o_heap o) h' /\ hlm (o_heap o) h' /\ stat_is sp' t /\
            (u = true -> isPOk (p_data b (ss_L t)) = true /\ isPOk (p_data b (ss_R t)) = true /\
                     isPOk (p_datas b (ss_mid t)) = true /\ sp_inv D sp' (ss_L t) (ss_R t))
        | _ => tot = false
        end
    end.
  Proof.
    intros HO HS Hfree. unfold p_update.
    destruct (p_mass b (ss_L t)) as [|e|mL'] eqn:ML; cbn [pbind]; [exact I|
      unfold p_mass in ML; destruct (nth_error (b_P b) (ss_L t)) as [[[?|] ?]|]; discriminate|].
    destruct (p_mass b (ss_R t)) as [|e|mR'] eqn:MR; cbn [pbind]; [exact I|
      unfold p_mass in MR; destruct (nth_error (b_P b) (ss_R t)) as [[[?|] ?]|]; discriminate|].
    destruct (mass_ref _ _ _ _ _ HO ML) as (PL & mL & EL & EmL & _).
    destruct (mass_ref _ _ _ _ _ HO MR) as (PR & mR & ER & EmR & _).
    destruct HS as (S1 & S2 & S3 & S4 & S5 & S6).
    pose proof (quiet_update (o_heap o) sp) as QU. pose proof (squiet_update (o_heap o) sp) as [SQ1 SQ2].
    assert (ST : forall sp', same_static sp sp' -> stat_is sp' t).
    { intros sp' HS'. eapply stat_same; [exact HS'|]. repeat split; assumption. }
    assert (NO : match (if match ss_mid t with [] => true | mid => free && forallb (fun a => a <? length (b_P b))%nat mid end
                        then POk false else PNone) with
                 | PNone => True
                 | PExn _ => False
                 | POk u => match sp_update (o_heap o, sp) with
                            | (Ok _, (h', sp')) => hle (o_heap o) h' /\ hlm (o_heap o) h' /\ stat_is sp' t /\
            (u = true -> isPOk (p_data b (ss_L t)) = true /\ isPOk (p_data b (ss_R t)) = true /\
                     isPOk (p_datas b (ss_mid t)) = true /\ sp_inv D sp' (ss_L t) (ss_R t))
                            | _ => tot = false
                            end
                 end).
    { destruct (match ss_mid t with [] => true | mid => free && forallb (fun a => a <? length (b_P b))%nat mid end) eqn:EF; [|exact I].
      assert (OKU : tot = true -> fst (sp_update (o_heap o, sp)) = Ok tt).
      { intros Ht. destruct (ss_mid t) as [|a0 l0] eqn:EMid; [eapply update_nomid; eauto|].
        apply andb_prop in EF as [EF ER']. eapply update_lenient; eauto.
        rewrite S3, (or_len _ _ _ HO). exact ER'. }
      destruct (sp_update (o_heap o, sp)) as [[[]|e|u] [h' sp']]; cbn [fst snd] in *.
      - refine (conj QU (conj SQ1 (conj (ST sp' SQ2) _))). discriminate.
      - destruct tot; [|reflexivity]. specialize (OKU eq_refl). discriminate.
      - destruct tot; [|reflexivity]. specialize (OKU eq_refl). discriminate. }
    pose proof (p_data_ok b (ss_L t)) as K1. pose proof (p_data_ok b (ss_R t)) as K2.
    pose proof (p_datas_ok b (ss_mid t)) as K3.
    destruct (p_data b (ss_L t)) as [|e|dL'] eqn:DL; [exact NO|contradiction|].
    destruct (p_data b (ss_R t)) as [|e|dR'] eqn:DR; [exact NO|contradiction|].
    destruct (p_datas b (ss_mid t)) as [|e|dm'] eqn:DM; [exact NO|contradiction|]. clear NO.
    destruct (data_ref _ _ _ _ _ HO DL) as (dL & L1 & L2 & _ & L4).
    destruct (data_ref _ _ _ _ _ HO DR) as (dR & R1 & R2 & _ & R4).
    destruct (datas_ref _ _ _ _ HO _ DM) as (dm & M1 & M2 & M3 & M4).
    assert (HK : all_known D (o_heap o) (sp_addrs sp)).
    { unfold sp_addrs. rewrite S1, S2, S3. intros a Ha. cbn in Ha. destruct Ha as [<-|[<-|Ha]]; auto. }
    destruct (update_eval D (o_heap o) sp _ _ _ _ S1 S2 HK (rdy_mass D _ _ L2) (rdy_mass D _ _ R2))
      as (h' & sp' & A1 & A2 & A3).
    rewrite S5, S6, !andb_false_r, S3, S4 in A3.
    destruct (dmats D (ss_angle t) (ss_mid t)) as [Ms|e|u] eqn:EMs.
    - destruct A3 as (A3 & A4 & _). rewrite A3 in *. cbn [fst snd] in *. refine (conj QU (conj SQ1 (conj (ST sp' SQ2) _))). auto.
    - rewrite A3. destruct tot eqn:Ht; [|reflexivity].
      rewrite (rdy_dmats D _ _ M2) in EMs. pose proof (chain_mats_ok dm Ht M3 (ss_angle t)) as U. rewrite EMs in U. discriminate.
    - rewrite A3. destruct tot eqn:Ht; [|reflexivity].
      rewrite (rdy_dmats D _ _ M2) in EMs. pose proof (chain_mats_ok dm Ht M3 (ss_angle t)) as U. rewrite EMs in U. discriminate.
  Qed.

  (** *** Statements *)
  Variable ro : bool.
  Hypothesis HRO : ro = false -> forall b, CO b.

  Definition ret_rel (r : option (ret n1)) (r' : option (ret n2)) : Prop :=
    match r, r' with Some x, Some y => Rret x y | None, None => True | _, _ => False end.
  Definition KX (r : option (ret n1)) (s : st n1) (p : option (ret n2) * pst n2) : Prop :=
    ret_rel r (fst p) /\ SR s (snd p) /\ CO (fst (snd p)).

  Lemma LR_I l r x v : LR l r -> LR (w_I x v l) (e_I x v r).
  Proof. intros HL. constructor; cbn; try apply HL. rewrite (lr_I _ _ HL). reflexivity. Qed.
  Lemma LR_T l r x c v : LR l r -> lcell c v -> LR (w_T x c l) (e_T x v r).
  Proof.
    intros HL Hc. constructor; cbn; try apply HL. intros y. unfold upd. destruct (Pos.eqb x y); [exact Hc|apply (lr_T _ _ HL)].
  Qed.
  Lemma LR_C l r x v v' : LR l r -> RC v v' -> LR (w_C x v l) (e_C x (Some v') r).
  Proof.
    intros HL Hc. constructor; cbn; try apply HL. intros y z. unfold upd. destruct (Pos.eqb x y).
    - intros [= <-]. exact Hc.
    - apply (lr_C _ _ HL).
  Qed.
  Lemma LR_aT l r x v v' : LR l r -> Forall2 lcell v v' -> LR (w_aT x v l) (e_aT x v' r).
  Proof.
    intros HL Hc. constructor; cbn; try apply HL. intros y. unfold upd. destruct (Pos.eqb x y); [exact Hc|apply (lr_aT _ _ HL)].
  Qed.
  Lemma LR_aC l r x d v v' : LR l r -> Forall2 RC v v' -> LR (w_aC x (d, v) l) (e_aC x (d, v') r).
  Proof.
    intros HL Hc. constructor; cbn; try apply HL. intros y. unfold upd. destruct (Pos.eqb x y); [split; auto|apply (lr_aC _ _ HL)].
  Qed.
  Lemma LR_decl l r t x : LR l r -> LR (decl_loc junk t x l) (p_decloc t x r).
  Proof.
    intros HL. destruct t; cbn; [apply LR_I, HL|apply LR_T; [exact HL|exact I]|apply LR_C; [exact HL|apply h_cT, (h_tZ H)]].
  Qed.
  Lemma LR_set l r t x v v' : LR l r -> RV v v' -> LR (set_loc t x v l) (p_setloc t x v' r).
  Proof.
    intros HL Hv. destruct t; cbn in *; [subst; apply LR_I, HL|apply LR_T; [exact HL|cbn; eauto]|apply LR_C; auto].
  Qed.
  Lemma F2_repeat {A B} (R : A -> B -> Prop) x y n : R x y -> Forall2 R (repeat x n) (repeat y n).
  Proof. intros Hxy. induction n; cbn; auto. Qed.
  Lemma F2_none {A} (f : A -> cell n1) l : Forall2 lcell (map f l) (repeat None (length l)).
  Proof. induction l; cbn; constructor; auto. exact I. Qed.
  Lemma LR_fold (M : nat -> option Z) l r : forall kxs, LR l r ->
    LR (fold_left (fun l kx => w_I (snd kx) (M (fst kx)) l) kxs l)
       (fold_left (fun l kx => e_I (snd kx) (M (fst kx)) l) kxs r).
  Proof.
    intros kxs. revert l r. induction kxs as [|[k x] kxs IH]; cbn; intros l r HL; [exact HL|]. apply IH, LR_I, HL.
  Qed.

  Lemma p_datas_ext (b b' : pobj n2) ps : b_P b' = b_P b -> p_datas b' ps = p_datas b ps.
  Proof.
    intros E. induction ps as [|p ps IH]; cbn [p_datas]; [reflexivity|]. rewrite IH. unfold p_data. rewrite E. reflexivity.
  Qed.
  Lemma or_S_ext D o b b' : ORD D o b -> b_P b' = b_P b -> b_S b' = b_S b ->
    forall s t u, b_S b' s = Some (t, u) -> stat_is (o_S o s) t /\
        (u = true -> isPOk (p_data b' (ss_L t)) = true /\ isPOk (p_data b' (ss_R t)) = true /\
                     isPOk (p_datas b' (ss_mid t)) = true /\ sp_inv D (o_S o s) (ss_L t) (ss_R t)).
  Proof.
    intros HO EP ES s t u. rewrite ES, (p_datas_ext b b' _ EP). unfold p_data. rewrite EP. exact (or_S _ _ _ HO s t u).
  Qed.
  Lemma ORD_T D o b x v v' : ORD D o b -> RT v v' -> ORD D (u_T x (Val v) o) (pl_T x (Some v') b).
  Proof.
    intros HO Hv. constructor; try apply HO; [| |apply (or_S_ext D o b); auto].
    - cbn. intros y z. unfold upd. destruct (Pos.eqb x y); [|apply (or_T _ _ _ HO)].
      intros [= <-]. exists v. auto.
    - cbn. intros y z. unfold upd. destruct (Pos.eqb x y); [discriminate|apply (or_J _ _ _ HO)].
  Qed.
  Lemma ORD_C D o b x v v' : ORD D o b -> RC v v' -> ORD D (u_C x v o) (pl_C x (Some v') b).
  Proof.
    intros HO Hv. constructor; try apply HO; [|apply (or_S_ext D o b); auto].
    cbn. intros y z. unfold upd. destruct (Pos.eqb x y); [|apply (or_C _ _ _ HO)].
    intros [= <-]. exact Hv.
  Qed.
  Lemma ORD_R D o b x v v' : ORD D o b -> Rprop v v' -> ORD D (u_R x v o) (pl_R x (Some v') b).
  Proof.
    intros HO Hv. constructor; try apply HO; [|apply (or_S_ext D o b); auto].
    cbn. intros y z. unfold upd. destruct (Pos.eqb x y); [|apply (or_R _ _ _ HO)].
    intros [= <-]. exact Hv.
  Qed.
  Lemma ORD_S D o b x sp' t u : ORD D o b -> stat_is sp' t ->
    (u = true -> isPOk (p_data b (ss_L t)) = true /\ isPOk (p_data b (ss_R t)) = true /\
                     isPOk (p_datas b (ss_mid t)) = true /\ sp_inv D sp' (ss_L t) (ss_R t)) ->
    ORD D (u_S x sp' o) (pl_S x (Some (t, u)) b).
  Proof.
    intros HO HS HI. constructor; try apply HO. cbn. intros s t' u'.
    assert (EP : b_P (pl_S x (Some (t, u)) b) = b_P b) by reflexivity.
    change (mkPobj (b_T b) (b_C b) (b_R b) (upd (b_S b) x (Some (t, u))) (b_P b)) with (pl_S x (Some (t, u)) b).
    rewrite (p_datas_ext b (pl_S x (Some (t, u)) b) _ EP). unfold upd. destruct (Pos.eqb x s).
    - intros [= <- <-]. split; [exact HS|exact HI].
    - exact (or_S _ _ _ HO s t' u').
  Qed.

  Lemma sprod_ref D o b x t : ORD D o b ->
    match p_update b t (q_midctor Q) with
    | PNone => True
    | PExn _ => False
    | POk u => match make_sprod x (ss_angle t) (ss_L t) (ss_mid t) (ss_R t) o with
               | (Ok _, o') => ORD D o' (pl_S x (Some (t, u)) b)
               | _ => tot = false
               end
    end.
  Proof.
    intros HO. unfold make_sprod, sp_construct.
    set (sp := mkSproduct _ _ _ _ _ _ _ _ _ _).
    assert (K1 : stat_is sp t) by (repeat split).
    pose proof (update_ref D o b t sp (q_midctor Q) HO K1 (fun Ht => ok_midctor HQ Ht)) as K.
    destruct (p_update b t (q_midctor Q)) as [|e|u]; auto.
    destruct (sp_update (o_heap o, sp)) as [[[]|e|u'] [h' sp']]; auto.
    destruct K as (Q1 & Q2 & Q3 & Q4). apply ORD_S; [apply ORD_heap; auto|exact Q3|exact Q4].
  Qed.
  Lemma supdate_ref D o b x t u0 : ORD D o b -> b_S b x = Some (t, u0) ->
    match p_update b t false with
    | PNone => True
    | PExn _ => False
    | POk u => match on_sprod x sp_update o with
               | (Ok _, o') => ORD D o' (pl_S x (Some (t, u)) b)
               | _ => tot = false
               end
    end.
  Proof.
    intros HO ES. destruct (or_S _ _ _ HO x t u0 ES) as [K1 _].
    pose proof (update_ref D o b t (o_S o x) false HO K1 ltac:(discriminate)) as K. unfold on_sprod.
    destruct (p_update b t false) as [|e|u]; auto.
    destruct (sp_update (o_heap o, o_S o x)) as [[[]|e|u'] [h' sp']]; auto.
    destruct K as (Q1 & Q2 & Q3 & Q4). apply ORD_S; [apply ORD_heap; auto|exact Q3|exact Q4].
  Qed.

  Lemma w_ref {A B S} (K : A -> S -> B -> Prop) l (r : pres B) : (ro = false -> REF K l r) -> REF K l (w ro r).
  Proof. intros Hr. unfold w. destruct ro; [exact I|auto]. Qed.
  Lemma void_l (f : env n1 -> env n1) s (s' : pst n2) r' : CO (fst s') -> OR (fst s) (fst s') -> LR (f (snd s)) r' ->
    REF KX (void (modl f) s) (POk (None, (fst s', r'))).
  Proof. intros HCO HO HL. cbn. split; [exact I|]. split; [split; assumption|exact HCO]. Qed.
  Lemma void_o (f : obj n1 -> obj n1) (s : st n1) b' l' : (forall b, CO b) -> LR (snd s) l' -> OR (f (fst s)) b' ->
    REF KX (void (modo f) s) (POk (None, (b', l'))).
  Proof. intros HCO HL HO. cbn. split; [exact I|]. split; [split; assumption|apply HCO]. Qed.
  Lemma void_ono (f : ST (obj n1) unit) (s : st n1) b' l' : (forall b, CO b) -> LR (snd s) l' ->
    match f (fst s) with (Ok _, o') => OR o' b' | _ => tot = false end ->
    REF KX (void (ono f) s) (POk (None, (b', l'))).
  Proof.
    intros HCO HL HO. unfold void, sbind, ono. destruct (f (fst s)) as [[[]|e|u] o']; cbn; auto.
    split; [exact I|]. split; [split; assumption|apply HCO].
  Qed.

  Lemma loop_ref x cond next body pbody :
    (forall s s', SR s s' -> CO (fst s') -> REF KX (body s) (pbody s')) ->
    forall fuel s s', SR s s' -> CO (fst s') ->
      REF KX (loop call fuel x cond next body s) (ploop Q pcall fuel x cond next pbody s').
  Proof.
    intros HB. induction fuel as [|n IH]; intros s s' HS HCO; cbn [loop ploop]; [exact I|].
    eapply ref_bind; [apply eval_ref; assumption|]. intros v s1 v' [Hv HS1]. cbn in Hv. subst v'.
    destruct v; [|split; [exact I|split; assumption]].
    eapply ref_bind; [apply HB; assumption|]. intros r s2 [r' s2'] (R1 & R2 & R3). cbn [fst snd] in *.
    destruct r as [r|], r' as [r'|]; try contradiction.
    - split; [exact R1|]. split; assumption.
    - eapply ref_bind; [apply eval_ref; assumption|]. intros z s3 z' [Hz HS3]. cbn in Hz. subst z'.
      apply IH; [|exact R3]. split; [apply HS3|]. cbn. apply LR_I, HS3.
  Qed.

  Lemma exec_ref (c : stmt) : forall s s', SR s s' -> CO (fst s') ->
    REF KX (exec junk call c s) (pexec Q pcall ro c s').
  Proof.
    induction c; intros v v' HS HCO; cbn [exec pexec];
      assert (HO := proj1 HS); assert (HL := proj2 HS).
    - split; [exact I|split; assumption].
    - eapply ref_bind; [apply IHc1; assumption|]. intros r s2 [r' s2'] (R1 & R2 & R3). cbn [fst snd] in *.
      destruct r as [r|], r' as [r'|]; try contradiction; [|apply IHc2; assumption].
      split; [exact R1|]. split; assumption.
    - apply void_l; auto. apply LR_decl, HL.
    - eapply ref_bind; [apply eval_ref; assumption|]. intros a s1 a' [Ha [HO1 HL1]].
      apply void_l; auto. apply LR_set; assumption.
    - apply w_ref. intros Hro. specialize (HRO Hro).
      eapply ref_bind; [apply eval_ref; assumption|]. intros a s1 a' [Ha [HO1 HL1]].
      apply void_o; auto. destruct HO1 as (D & HO1). exists D. apply ORD_T; assumption.
    - apply w_ref. intros Hro. specialize (HRO Hro).
      eapply ref_bind; [apply eval_ref; assumption|]. intros a s1 a' [Ha [HO1 HL1]].
      apply void_o; auto. destruct HO1 as (D & HO1). exists D. apply ORD_C; assumption.
    - apply void_l; auto. apply LR_aT; [exact HL|]. rewrite <- (seq_length n 0) at 2. apply F2_none.
    - apply void_l; auto. apply LR_aC; [exact HL|]. apply F2_repeat, h_cT, (h_tZ H).
    - eapply ref_bind; [apply eval_ref; assumption|]. intros a s1 a' [Ha [HO1 HL1]].
      apply ref_getl. apply ref_atom; [exact HL1|]. intros z. unfold idx. destruct (z <? 0)%Z; cbn [obind pof pbind].
      + exact I.
      + eapply ref_lift; [apply arr_set_ref; [apply (lr_aT _ _ HL1)|exists a; split; [reflexivity|exact Ha]]|].
        intros l l' Hl. apply void_l; auto. apply LR_aT; assumption.
    - eapply ref_bind; [apply eval_ref; assumption|]. intros a s1 a' [Ha [HO1 HL1]].
      apply ref_getl. apply ref_atoms; [exact HL1|]. intros zs. destruct (lr_aC _ _ HL1 x) as [E1 E2]. rewrite E1.
      destruct (flat_index (fst (r_aC (snd v') x)) zs 0) as [k| |]; cbn [obind pof pbind]; try exact I.
      eapply ref_lift; [apply arr_set_ref; [exact E2|exact Ha]|].
      intros l l' Hl. apply void_l; auto. apply LR_aC; assumption.
    - eapply ref_bind; [apply eval_ref; assumption|]. intros a s1 a' [Ha HS1]. cbn in Ha. subst a'.
      destruct a; [apply IHc1|apply IHc2]; assumption.
    - eapply ref_bind; [apply eval_ref; assumption|]. intros a s1 a' [Ha HS1]. cbn in Ha. subst a'.
      apply (loop_ref x cond next _ _ IHc loop_fuel (fst s1, w_I x (Some a) (snd s1))); [|exact HCO].
      split; [apply HS1|]. apply LR_I, HS1.
    - eapply ref_bind; [apply eval_ref; assumption|]. intros a s1 a' [Ha HS1]. split; [exact Ha|split; assumption].
    - eapply ref_bind; [apply eval_ref; assumption|]. intros a s1 a' [Ha HS1]. split; [exact Ha|split; assumption].
    - cbn. auto.
    - apply w_ref. intros Hro. specialize (HRO Hro).
      eapply ref_bind; [apply eval_ref; assumption|]. intros a s1 a' [Ha [HO1 HL1]].
      destruct (p <? length (b_P (fst v')))%nat eqn:Ep; [|exact I].
      apply void_ono; auto. destruct HO1 as (D & HO1). destruct (part_exists D _ _ p HO1 Ep) as (P & EP).
      unfold on_part. rewrite EP. cbn [modify]. exists D. eapply ORD_mass; eauto. reflexivity.
    - apply w_ref. intros Hro. specialize (HRO Hro).
      eapply ref_bind; [apply eval_ref; assumption|]. intros a s1 a' [Ha [HO1 HL1]].
      destruct (p <? length (b_P (fst v')))%nat eqn:Ep; [|exact I].
      apply void_ono; auto. destruct HO1 as (D & HO1). destruct (part_exists D _ _ p HO1 Ep) as (P & EP).
      unfold on_part. rewrite EP. cbn [modify set_mass]. exists D. eapply ORD_mass; eauto. reflexivity.
    - apply w_ref. intros Hro. specialize (HRO Hro).
      apply ref_getl. eapply ref_read4; [apply (lr_aT _ _ HL)|]. intros q q' Hq.
      destruct HO as (D & HO'). destruct (p_mass (fst v') p) as [|e|m'] eqn:EM; cbn [pbind];
        [exact I|unfold p_mass in EM; destruct (nth_error (b_P (fst v')) p) as [[[?|] ?]|]; discriminate|].
      destruct (q_accept Q m' q') eqn:EA; [|exact I].
      apply void_ono; auto. pose proof (momentum_ref D _ _ p m' q q' HO' EM Hq EA) as K.
      destruct (on_part p (set_momentum q) (fst v)) as [[[]|?|?] o']; exact K.
    - apply w_ref. intros Hro. specialize (HRO Hro).
      eapply ref_bind; [apply eval_ref; assumption|]. intros a s1 a' [Ha HS1].
      eapply ref_bind; [apply eval_ref; assumption|]. intros b s2 b' [Hb [HO2 HL2]].
      apply void_o; auto. destruct HO2 as (D & HO2). exists D. apply ORD_R; [exact HO2|]. split; assumption.
    - apply w_ref. intros Hro. specialize (HRO Hro).
      eapply ref_bind; [apply eval_ref; assumption|]. intros a s1 a' [Ha [HO1 HL1]].
      destruct HO1 as (D & HO1). pose proof (or_R _ _ _ HO1 r) as K.
      destruct (b_R (fst v') r) as [pr|]; cbn [pget pbind]; [|exact I].
      apply void_o; auto. exists D. apply ORD_R; [exact HO1|]. split; [exact Ha|]. apply (K pr eq_refl).
    - apply w_ref. intros Hro. specialize (HRO Hro). destruct HO as (D & HO').
      pose proof (sprod_ref D _ _ s (mkStat angle pL mid pR) HO') as K. cbn [ss_angle ss_L ss_mid ss_R] in K.
      destruct (p_update _ _ _) as [|e|u]; cbn [pbind]; [exact I|contradiction|].
      apply void_ono; auto. destruct (make_sprod s angle pL mid pR (fst v)) as [[[]|?|?] o']; auto. exists D. exact K.
    - apply w_ref. intros Hro. specialize (HRO Hro). destruct HO as (D & HO').
      destruct (b_S (fst v') s) as [[t u0]|] eqn:ES; cbn [pget pbind fst]; [|exact I].
      pose proof (supdate_ref D _ _ s t u0 HO' ES) as K.
      destruct (p_update _ _ _) as [|e|u]; cbn [pbind]; [exact I|contradiction|].
      apply void_ono; auto. destruct (on_sprod s sp_update (fst v)) as [[[]|?|?] o']; auto. exists D. exact K.
    - apply ref_getl. apply ref_atom; [exact HL|]. intros z. unfold spins_sem, p_spins. rewrite (lr_I _ _ HL).
      destruct (spinor_spins_of _ _ _) as [M|e|u]; cbn [obind pof pbind]; try exact I.
      apply (void_l (fun _ => fold_left (fun l kx => w_I (snd kx) (M (fst kx)) l)
               (combine (seq 0 (length (flat3 args))) (flat3 args)) (snd v))); auto. apply LR_fold, HL.
  Qed.

  (** *** Methods *)
  Definition Rarg (a : arg n1) (a' : arg n2) : Prop :=
    match a, a' with
    | GI z, GI z' => z = z'
    | GT x, GT x' => RT x x'
    | GMom q, GMom q' => Rmom q q'
    | _, _ => False
    end.
  Lemma LR_env0 : LR (env0 junk) penv0.
  Proof.
    constructor; cbn; auto.
    - intros x y [= <-]. apply h_cT, (h_tZ H).
  Qed.
  Lemma binds_ref ps : forall args args' l r, Forall2 Rarg args args' -> LR l r ->
    match p_binds ps args' r with
    | POk r' => exists l', bind_args ps args l = Ok l' /\ LR l' r'
    | PNone => True
    | PExn _ => False
    end.
  Proof.
    induction ps as [|p ps IH]; intros args args' l r HF HL.
    - destruct HF; cbn; eauto.
    - destruct HF as [|a a' args args' Ha HF]; [exact I|]. cbn [p_binds bind_args].
      unfold p_bind, bind_arg. destruct (snd p), a, a'; cbn in Ha; try contradiction; cbn [pbind obind]; try exact I.
      + subst. apply IH; [exact HF|]. apply LR_I, HL.
      + apply IH; [exact HF|]. apply LR_T; [exact HL|]. cbn; eauto.
      + apply IH; [exact HF|]. apply LR_aT; [exact HL|]. destruct Ha as (? & ? & ? & ?).
        repeat constructor; cbn; eauto.
  Qed.
  Lemma invoke_ref f args args' o b : Forall2 Rarg args args' -> OR o b -> CO b ->
    REF (fun r o' p => ret_rel r (fst p) /\ OR o' (snd p) /\ CO (snd p)) (invoke junk call f args o)
        (pinvoke Q pcall ro f args' b).
  Proof.
    intros HA HO HCO. unfold invoke, pinvoke.
    pose proof (binds_ref (m_params f) args args' _ _ HA LR_env0) as K.
    destruct (p_binds (m_params f) args' penv0) as [|e|l']; cbn [pbind]; [exact I|contradiction|].
    destruct K as (l & -> & HL).
    pose proof (exec_ref (m_body f) (o, l) (b, l') (conj HO HL) HCO) as K.
    destruct (exec junk call (m_body f) (o, l)) as [r [o1 l1]].
    destruct (pexec Q pcall ro (m_body f) (b, l')) as [|e|[r' [b1 l1']]]; cbn in *; auto.
    destruct r as [r|e|u]; auto. destruct K as (K1 & [K2 _] & K3). auto.
  Qed.
End Ref.

(** *** Classes *)
Section RefClass.
  Context {n1 n2 : Num}.
  Variable tot : bool.
  Variable RT : T n1 -> T n2 -> Prop.
  Variable RD : D n1 -> D n2 -> Prop.
  Variable RC : CX n1 -> CX n2 -> Prop.
  Hypothesis H : hom RT RD RC.
  Variable Q : oracle n2.
  Hypothesis HQ : oracle_ok tot RT RC Q.
  Variable junk : id -> nat -> T n1.
  Variable c : cls.
  Notation OR := (OR tot RT RC Q).
  Notation REF := (REF tot).

  Lemma inner_ref call o b m zs : OR o b ->
    REF (fun r o' y => (exists x, r = Some (RtC x) /\ RC x y) /\ OR o' b)
      (match find_meth c m with Some f => invoke junk call f (map GI zs) | None => slift (UB TypeMismatch) end o)
      (pinner Q c b m zs).
  Proof.
    intros HO. unfold pinner. destruct (find_meth c m) as [f|]; [|exact I].
    assert (HA : Forall2 (Rarg RT) (map GI zs) (map GI zs)).
    { induction zs; cbn; constructor; [reflexivity|assumption]. }
    pose proof (invoke_ref tot RT RD RC H Q HQ junk call nocall (eq b) (fun _ _ _ _ _ _ => I) true
                  (fun E => match diff_true_false E with end) f _ _ o b HA HO eq_refl) as K.
    unfold pbind. destruct (pinvoke Q nocall true f (map GI zs) b) as [|e|[r' b']]; cbn in *; auto.
    destruct (invoke junk call f (map GI zs) o) as [r o']. destruct r' as [[x|y]|]; cbn in *; auto.
    destruct r as [r|e|u]; auto. destruct K as (K1 & K2 & <-). destruct r as [[x|x]|]; try contradiction. eauto.
  Qed.
  Lemma method_ref m args args' o b : Forall2 (Rarg RT) args args' -> OR o b ->
    REF (fun r o' p => ret_rel RT RC r (fst p) /\ OR o' (snd p)) (callm junk c m args o)
        (pmethod Q c (pinner Q c) m args' b).
  Proof.
    intros HA HO. unfold callm, pmethod. cbn [run]. destruct (find_meth c m) as [f|]; [|exact I].
    assert (HC : forall o b m zs, True -> OR o b ->
      REF (fun r o' y => (exists x, r = Some (RtC x) /\ RC x y) /\ OR o' b)
        (run junk c 1 m (map GI zs) o) (pinner Q c b m zs)).
    { intros o1 b1 m1 zs1 _ HO1. cbn [run]. apply inner_ref, HO1. }
    pose proof (invoke_ref tot RT RD RC H Q HQ junk (run junk c 1) (pinner Q c) (fun _ => True) HC false
                  (fun _ _ => I) f args args' o b HA HO I) as K.
    destruct (pinvoke Q (pinner Q c) false f args' b) as [|e|[r' b']]; cbn in *; auto.
    destruct (invoke junk _ f args o) as [[r|e|u] o']; auto. destruct K as (K1 & K2 & _). auto.
  Qed.

  Hypothesis HJ : forall x y, q_junk Q x = Some y -> (tot = true -> strict n1 = false) /\ RT (junk x 0) y.
  Lemma raw_ref : OR (raw junk) praw.
  Proof.
    exists (fun _ => particle_default (fun _ => tZ 0)). constructor; cbn [praw b_T b_C b_R b_S b_P raw o_T o_C o_R o_S o_heap].
    - discriminate.
    - intros x y _ E. destruct (HJ x y E) as [Ht Hr]. split; [exact Ht|]. exists (junk x 0). auto.
    - intros x y [= <-]. apply (h_cT RT RD RC H), (h_tZ _ _ _ H).
    - intros x y [= <-]. split; apply (h_tZ _ _ _ H).
    - reflexivity.
    - intros p m' q' E. do 4 (destruct p as [|p]; [discriminate E|]). destruct p; discriminate.
    - intros p m' q' E. do 4 (destruct p as [|p]; [discriminate E|]). destruct p; discriminate.
    - discriminate.
  Qed.
  Notation SR := (SR tot RT RC Q).
  Lemma init_ref x k i s s' : SR s s' ->
    REF (fun _ s1 s1' => SR s1 s1') (init_member junk x k i s) (pinit Q x k i s').
  Proof.
    intros HS. assert (EV : forall t (e : exp t) w w', SR w w' ->
        REF (KE tot RT RD RC Q w') (eval no_call e w) (peval Q nocall e w')).
    { intros t e w w' Hw. apply (eval_ref tot RT RD RC H Q HQ no_call nocall (fun _ => True) (fun _ _ _ _ _ _ => I)); auto. }
    destruct i as [i|]; [|destruct k; exact HS].
    destruct k, i; try exact I; cbn [init_member pinit].
    - eapply ref_bind; [apply EV, HS|]. intros a s1 a' [Ha [HO1 HL1]]. destruct HO1 as (D & HO1).
      split; [|exact HL1]. exists D. apply (ORD_T tot RT RC Q); assumption.
    - eapply ref_bind; [apply EV, HS|]. intros a s1 a' [Ha HS1].
      eapply ref_bind; [apply EV, HS1|]. intros b s2 b' [Hb [HO2 HL2]]. destruct HO2 as (D & HO2).
      split; [|exact HL2]. exists D. apply (ORD_R tot RT RC Q); [assumption|]. split; assumption.
    - destruct HS as [(D & HO) HL]. split; [|exact HL]. exists D. apply (ORD_R tot RT RC Q); [exact HO|]. split; apply (h_tZ _ _ _ H).
    - destruct HS as [(D & HO) HL].
      pose proof (sprod_ref tot RT RC Q HQ D _ _ x (mkStat angle pL mid pR) HO) as K. cbn [ss_angle ss_L ss_mid ss_R] in K.
      destruct (p_update _ _ _) as [|e|u]; cbn [pbind]; [exact I|contradiction|]. unfold ono.
      destruct (make_sprod x angle pL mid pR (fst s)) as [[[]|?|?] o']; cbn; auto. split; [|exact HL]. exists D. exact K.
    - eapply ref_bind; [apply EV, HS|]. intros a s1 a' [Ha [HO1 HL1]]. destruct HO1 as (D & HO1).
      destruct (p <? length (b_P (fst s')))%nat eqn:Ep; [|exact I].
      destruct (part_exists tot RT RC Q D _ _ p HO1 Ep) as (P & EP). unfold ono, on_part. rewrite EP. cbn [modify REF].
      split; [|exact HL1]. exists D. eapply (ORD_mass tot RT RC Q); eauto. reflexivity.
  Qed.
  Lemma inits_ref ms : forall s s', SR s s' ->
    REF (fun _ s1 s1' => SR s1 s1') (init_members junk c ms s) (pinits Q c ms s').
  Proof.
    induction ms as [|[x k] ms IH]; intros s s' HS; [exact HS|]. cbn [init_members pinits].
    eapply ref_bind; [apply init_ref, HS|]. intros [] s1 s1' HS1. apply IH, HS1.
  Qed.
  Lemma construct_ref params params' : Forall2 RT params params' ->
    REF (fun _ o b => OR o b) (construct junk c params) (pconstruct Q c params').
  Proof.
    intros HP. unfold construct, pconstruct.
    assert (HA : Forall2 (Rarg RT) (map GT params) (map GT params')).
    { clear -HP. induction HP; cbn; constructor; auto. }
    pose proof (binds_ref RT RC (map (fun x => (x, PkT)) (c_params c)) _ _ _ _ HA
                  (LR_env0 RT RD RC H junk)) as K.
    destruct (p_binds _ (map GT params') penv0) as [|e|l']; cbn [pbind]; [exact I|contradiction|].
    destruct K as (l & -> & HL).
    pose proof (inits_ref (c_members c) (raw junk, l) (praw, l') (conj (raw_ref) HL)) as K.
    unfold sbind at 1. destruct (init_members junk c (c_members c) (raw junk, l)) as [[[]|e|u] [o1 l1]];
      destruct (pinits Q c (c_members c) (praw, l')) as [|e'|s1']; cbn [pbind]; try exact I; try contradiction;
      try exact K.
    2: { cbn in K. destruct (pexec _ _ _ _ _); cbn; auto. }
    2: { cbn in K. destruct (pexec _ _ _ _ _); cbn; auto. }
    pose proof (exec_ref tot RT RD RC H Q HQ junk no_call nocall (fun _ => True) (fun _ _ _ _ _ _ => I) false
                  (fun _ _ => I) (c_body c) (o1, l1) s1' K I) as K2.
    unfold sbind. destruct (exec junk no_call (c_body c) (o1, l1)) as [[r|e|u] [o2 l2]];
      destruct (pexec Q nocall false (c_body c) s1') as [|e'|[r' s2']]; cbn in *; auto.
    apply K2.
  Qed.
End RefClass.
