(** * Lemmas behind the sproduct properties C12-C16 *)
From Coq Require Import Reals Lra.
From Verif Require Import Base Scalar Linear Particle Sproduct ParticleProofs RealNum ParticleReal Ready
  ParticleClaims World SpecSproduct WorldProofs.

Section Generic.
  Context {num : Num}.
  Notation T := (T num).
  Notation particle := (particle num).
  Notation sproduct := (sproduct num).
  Notation world := (world num).

  (** What an accessor returns on a particle in use is what it returns on a new one. *)
  Lemma ready_fresh {A} (x : ST particle A) g m q (P : particle) :
    transparent x -> srel x x -> ready m q P ->
    fst (x (uncached P)) = fst (x (snd (particle_new g q m))).
  Proof.
    intros Hx Sx HR. destruct (Hx P (ready_coh _ _ _ HR)) as (H1 & _ & _). rewrite <- H1.
    destruct (ready_transparent x m q P Hx HR) as (P0 & P1 & Hm & HS & E). rewrite E.
    destruct (set_momentum_only_mass q P0 (w_m (Val m) (particle_default g))) as [_ H2].
    { exact Hm. }
    rewrite HS in H2. apply (proj1 (Sx _ _ (H2 eq_refl))).
  Qed.

  (** The particle stored at an address (anything if there is none). *)
  Definition at_ (g : nat -> T) (h : heap num) (a : addr) : particle := nth a h (particle_default g).
  Lemma at_some g h a P : nth_error h a = Some P -> at_ g h a = P.
  Proof. intros H. unfold at_. apply nth_error_nth. exact H. Qed.

  Definition parts_ready (md : addr -> T) (qd : addr -> mom num) (h : heap num) (A : list addr) : Prop :=
    forall a, In a A -> exists P, nth_error h a = Some P /\ ready (md a) (qd a) P.

  Section At.
    Variables (g0 : nat -> T) (gd : addr -> nat -> T) (md : addr -> T) (qd : addr -> mom num) (h0 : heap num).
    Let D := at_ g0 h0.
    Let F a := snd (particle_new (gd a) (qd a) (md a)).
    Let massless a := teqb (md a) (tZ 0).

    Lemma ready_known A : parts_ready md qd h0 A -> all_known D h0 A.
    Proof.
      intros H a Ha. destruct (H a Ha) as (P & HP & HR). exists P. split; [exact HP|].
      split; [exact (ready_coh _ _ _ HR)|]. unfold D. rewrite (at_some _ _ _ _ HP). reflexivity.
    Qed.
    Lemma ready_mass A a : parts_ready md qd h0 A -> In a A -> rd (pa_m (D a)) = Ok (md a).
    Proof.
      intros H Ha. destruct (H a Ha) as (P & HP & HR). unfold D. rewrite (at_some _ _ _ _ HP).
      exact (ready_pa_m _ _ _ HR).
    Qed.
    Lemma ready_massive A a : parts_ready md qd h0 A -> In a A -> massive_at D a = negb (massless a).
    Proof. intros H Ha. unfold massive_at. rewrite (ready_mass A a H Ha). reflexivity. Qed.
    Lemma ready_dval {X} (x : ST particle X) A a : transparent x -> srel x x ->
      parts_ready md qd h0 A -> In a A -> dval D x a = fst (x (F a)).
    Proof.
      intros Hx Sx H Ha. destruct (H a Ha) as (P & HP & HR). unfold dval, D. rewrite (at_some _ _ _ _ HP).
      exact (ready_fresh x (gd a) _ _ _ Hx Sx HR).
    Qed.
    Lemma srel_ul (lower : bool) : srel (if lower then lmat (num:=num) else umat) (if lower then lmat else umat).
    Proof. destruct lower; [exact (srel_mat LoMat)|exact (srel_mat UpMat)]. Qed.
    Lemma ready_dmats A ps : parts_ready md qd h0 A -> (forall a, In a ps -> In a A) ->
      forall lower, dmats D lower ps = chain_mats lower (map F ps).
    Proof.
      intros H. induction ps as [|a ps IH]; intros HA lower; simpl; [reflexivity|].
      rewrite (ready_dval _ A a (transparent_ul lower) (srel_ul lower) H) by (apply HA; left; reflexivity).
      rewrite IH by (intros b Hb; apply HA; right; exact Hb). reflexivity.
    Qed.
    Definition espin (b massive upper : bool) : option (Z * bool) :=
      if massive then Some (spin_of b, upper) else None.
    Lemma ready_dvalue sp aL aR i j : parts_ready md qd h0 (aL :: aR :: sp_mid sp) ->
      dvalue D sp aL aR i j =
      chain (sp_angle sp) (espin i (negb (massless aL)) (sp_Lupper sp)) (F aL) (map F (sp_mid sp))
            (espin j (negb (massless aR)) (sp_Rupper sp)) (F aR).
    Proof.
      intros H. unfold dvalue, chain.
      rewrite (ready_dmats _ (sp_mid sp) H) by (intros a Ha; right; right; exact Ha).
      rewrite map_length. unfold dend.
      rewrite (ready_massive _ aL H), (ready_massive _ aR H) by (simpl; auto).
      destruct (massless aL), (massless aR); cbn [negb espin end_spinor];
        rewrite ?(ready_dval _ _ _ (transparent_spinor0 _) (srel_spinor0 _) H) by (simpl; auto);
        rewrite ?(ready_dval _ _ _ (transparent_spinor2 _ _ _) (srel_spinor2 _ _ _) H) by (simpl; auto);
        destruct i, j; reflexivity.
    Qed.

    Lemma sp_addrs_eq (sp : sproduct) aL aR : sp_L sp = Some aL -> sp_R sp = Some aR ->
      sp_addrs sp = aL :: aR :: sp_mid sp.
    Proof. unfold sp_addrs. intros -> ->. reflexivity. Qed.

    (** The result of a method of sproduct i in a world satisfying the invariant. *)
    Lemma on_sp_fst {X} (f : ST (store num) X) (r : X -> wval num) i w sp :
      nth_error (w_sps w) i = Some sp ->
      fst (smap r (on_sp i f) w) = omap r (fst (f (w_heap w, sp))).
    Proof.
      intros E. unfold smap, sbind, on_sp. rewrite E.
      destruct (f (w_heap w, sp)) as [[x|e|u] [h' sp']]; reflexivity.
    Qed.

    Lemma winv_values i (sp : sproduct) aL aR w :
      sp_L sp = Some aL -> sp_R sp = Some aR ->
      parts_ready md qd h0 (aL :: aR :: sp_mid sp) -> winv D i sp aL aR w ->
      let C sL sR := omap RVal (chain (sp_angle sp) sL (F aL) (map F (sp_mid sp)) sR (F aR)) in
      (massless aL = true -> massless aR = true ->
         fst (wstep (WV0 i) w) = C None None) /\
      (forall s, (s = 1 \/ s = -1)%Z -> massless aL = false -> massless aR = true ->
         fst (wstep (WV1 i s) w) = C (Some (s, sp_Lupper sp)) None) /\
      (forall s, (s = 1 \/ s = -1)%Z -> massless aL = true -> massless aR = false ->
         fst (wstep (WV1 i s) w) = C None (Some (s, sp_Rupper sp))) /\
      (forall s t, (s = 1 \/ s = -1)%Z -> (t = 1 \/ t = -1)%Z -> massless aL = false -> massless aR = false ->
         fst (wstep (WV2 i s t) w) = C (Some (s, sp_Lupper sp)) (Some (t, sp_Rupper sp))).
    Proof.
      intros HL HR HP [(sp' & E & S & INV) HK] C.
      rewrite <- (sp_addrs_static sp sp' S) in HK.
      pose proof (ready_massive _ aL HP (or_introl eq_refl)) as ML.
      pose proof (ready_massive _ aR HP (or_intror (or_introl eq_refl))) as MR.
      assert (DV : forall a b, dvalue D sp' aL aR a b = chain (sp_angle sp)
                (espin a (negb (massless aL)) (sp_Lupper sp)) (F aL) (map F (sp_mid sp))
                (espin b (negb (massless aR)) (sp_Rupper sp)) (F aR)).
      { intros a b. rewrite (dvalue_static D sp sp' aL aR a b S). apply ready_dvalue, HP. }
      split; [|split; [|split]].
      - intros H1 H2. cbn [wstep]. rewrite (on_sp_fst v0 RVal i w sp' E).
        destruct (v0_eval D (w_heap w) sp' aL aR INV HK) as (h' & s' & _ & _ & _ & ->). cbn [fst].
        rewrite ML, MR, H1, H2, DV, H1, H2. reflexivity.
      - intros s Hs H1 H2. cbn [wstep]. rewrite (on_sp_fst (v1 s) RVal i w sp' E).
        destruct (v1_eval D s (w_heap w) sp' aL aR INV HK) as (h' & s' & _ & _ & _ & ->). cbn [fst].
        rewrite ML, MR, H1, H2. cbn [negb]. unfold spin_res.
        rewrite (proj2 (spinb_true s) Hs), DV, H1, H2. cbn [negb espin].
        rewrite spin_of_pos by exact Hs. reflexivity.
      - intros s Hs H1 H2. cbn [wstep]. rewrite (on_sp_fst (v1 s) RVal i w sp' E).
        destruct (v1_eval D s (w_heap w) sp' aL aR INV HK) as (h' & s' & _ & _ & _ & ->). cbn [fst].
        rewrite ML, MR, H1, H2. cbn [negb]. unfold spin_res.
        rewrite (proj2 (spinb_true s) Hs), DV, H1, H2. cbn [negb espin].
        rewrite spin_of_pos by exact Hs. reflexivity.
      - intros s t Hs Ht H1 H2. cbn [wstep]. rewrite (on_sp_fst (v2 s t) RVal i w sp' E).
        destruct (v2_eval D s t (w_heap w) sp' aL aR INV HK) as (h' & s' & _ & _ & _ & ->). cbn [fst].
        rewrite ML, MR, H1, H2. cbn [negb andb]. unfold spin_res.
        rewrite (proj2 (spinb_true s) Hs), (proj2 (spinb_true t) Ht), DV, H1, H2. cbn [negb espin andb].
        rewrite !spin_of_pos by assumption. reflexivity.
    Qed.

    (** Which calls throw, in any world satisfying the invariant; spin arguments are
        only checked when nothing is cached. *)
    Lemma winv_usage i (sp : sproduct) aL aR w sp' :
      sp_L sp = Some aL -> sp_R sp = Some aR ->
      parts_ready md qd h0 (aL :: aR :: sp_mid sp) ->
      nth_error (w_sps w) i = Some sp' -> same_static sp sp' -> sp_inv D sp' aL aR ->
      all_known D (w_heap w) (sp_addrs sp) ->
      (if negb (massless aL && massless aR) then fst (wstep (WV0 i) w) = Exn ProductUsage
       else exists x, fst (wstep (WV0 i) w) = Ok (RVal x)) /\
      (forall s, if Bool.eqb (massless aL) (massless aR) then fst (wstep (WV1 i s) w) = Exn ProductUsage
         else if spinb s then exists x, fst (wstep (WV1 i s) w) = Ok (RVal x)
         else sp_prod sp' = no_prod -> fst (wstep (WV1 i s) w) = Exn BadSpin) /\
      (forall s t, if massless aL || massless aR then fst (wstep (WV2 i s t) w) = Exn ProductUsage
         else if spinb s && spinb t then exists x, fst (wstep (WV2 i s t) w) = Ok (RVal x)
         else sp_prod sp' = no_prod -> fst (wstep (WV2 i s t) w) = Exn BadSpin).
    Proof.
      intros HL HR HP E S INV HK.
      rewrite <- (sp_addrs_static sp sp' S) in HK.
      pose proof (ready_massive _ aL HP (or_introl eq_refl)) as ML.
      pose proof (ready_massive _ aR HP (or_intror (or_introl eq_refl))) as MR.
      assert (DO : forall d b u a, (exists m, rd (pa_m (D a)) = Ok m) ->
                exists v, dend D d (massive_at D a) b u a = Ok v).
      { intros d b u a Hm. unfold dend. destruct (massive_at D a) eqn:EM.
        - exact (dval_spinor2_ok D d b u a EM).
        - exact (dval_spinor0_ok D d a EM Hm). }
      assert (DV : forall a b, exists x, dvalue D sp' aL aR a b = Ok x).
      { intros a b. unfold dvalue. destruct (inv_mats _ _ _ _ INV) as (Ms & EMs & _). rewrite EMs.
        destruct (DO (left_side (sp_angle sp')) a (sp_Lupper sp') aL (inv_mL _ _ _ _ INV)) as (x & ->).
        destruct (DO (right_side (sp_angle sp') (length (sp_mid sp'))) b (sp_Rupper sp') aR (inv_mR _ _ _ _ INV)) as (y & ->).
        eexists; reflexivity. }
      split; [|split].
      - cbn [wstep]. rewrite (on_sp_fst v0 RVal i w sp' E).
        destruct (v0_eval D (w_heap w) sp' aL aR INV HK) as (h' & s' & _ & _ & _ & ->). cbn [fst].
        rewrite ML, MR, negb_andb. destruct (DV false false) as (x & ->).
        destruct (_ || _); [reflexivity|exists x; reflexivity].
      - intros s. cbn [wstep]. rewrite (on_sp_fst (v1 s) RVal i w sp' E).
        destruct (v1_eval D s (w_heap w) sp' aL aR INV HK) as (h' & s' & _ & _ & _ & ->). cbn [fst].
        rewrite ML, MR. unfold spin_res.
        destruct (massless aL), (massless aR), (spinb s); cbn; try reflexivity.
        + destruct (DV false (s >? 0)%Z) as (x & ->). eexists; reflexivity.
        + intros ->. reflexivity.
        + destruct (DV (s >? 0)%Z false) as (x & ->). eexists; reflexivity.
        + intros ->. reflexivity.
      - intros s t. cbn [wstep]. rewrite (on_sp_fst (v2 s t) RVal i w sp' E).
        destruct (v2_eval D s t (w_heap w) sp' aL aR INV HK) as (h' & s' & _ & _ & _ & ->). cbn [fst].
        rewrite ML, MR. unfold spin_res.
        destruct (massless aL), (massless aR); cbn [negb andb orb]; try reflexivity.
        destruct (spinb s && spinb t).
        + destruct (DV (s >? 0)%Z (t >? 0)%Z) as (x & ->). eexists; reflexivity.
        + intros ->. reflexivity.
    Qed.

    (** A successful update establishes the invariant. *)
    Lemma winv_update i (sp : sproduct) aL aR w w1 :
      h0 = w_heap w -> nth_error (w_sps w) i = Some sp ->
      sp_L sp = Some aL -> sp_R sp = Some aR ->
      parts_ready md qd h0 (aL :: aR :: sp_mid sp) ->
      wstep (WUpdate i) w = (Ok RUnit, w1) ->
      winv D i sp aL aR w1 /\
      exists sp', nth_error (w_sps w1) i = Some sp' /\ same_static sp sp' /\ sp_inv D sp' aL aR /\
                  sp_prod sp' = no_prod.
    Proof.
      intros EH E HL HR HP HU.
      assert (HK : all_known D (w_heap w) (sp_addrs sp)).
      { rewrite <- EH, (sp_addrs_eq sp aL aR HL HR). apply ready_known, HP. }
      destruct (update_eval D (w_heap w) sp aL aR (md aL) (md aR) HL HR HK) as (h' & sp' & LE & S & EU).
      { apply (ready_mass _ _ HP). left; reflexivity. }
      { apply (ready_mass _ _ HP). right; left; reflexivity. }
      cbn [wstep] in HU. unfold smap, sbind, on_sp in HU. rewrite E in HU.
      destruct (negb (massive_at D aL) && negb (sp_Lupper sp)); [rewrite EU in HU; discriminate|].
      destruct (negb (massive_at D aR) && negb (sp_Rupper sp)); [rewrite EU in HU; discriminate|].
      destruct (dmats D (sp_angle sp) (sp_mid sp)); [|rewrite EU in HU; discriminate..].
      destruct EU as (EU & INV & NP). rewrite EU in HU. cbn in HU. injection HU as <-.
      assert (E' : nth_error (lset (w_sps w) i sp') i = Some sp') by (eapply lset_same; eauto).
      split; [|exists sp'; cbn; auto].
      constructor; cbn; [exists sp'; auto|]. eapply all_known_hle; eauto.
    Qed.

    (** So does a successful construction. *)
    Lemma winv_make angle aL iLU mid aR iRU w w1 :
      h0 = w_heap w -> parts_ready md qd h0 (aL :: aR :: mid) ->
      wstep (WSMake angle aL iLU mid aR iRU) w = (Ok RUnit, w1) ->
      let sp := mkSproduct (Some aL) (Some aR) mid cmatrix_zero false false angle iLU iRU no_prod in
      winv D (length (w_sps w)) sp aL aR w1 /\
      exists sp', nth_error (w_sps w1) (length (w_sps w)) = Some sp' /\ same_static sp sp' /\
                  sp_inv D sp' aL aR /\ sp_prod sp' = no_prod.
    Proof.
      intros EH HP HU sp.
      assert (HK : all_known D (w_heap w) (sp_addrs sp)).
      { rewrite <- EH. apply ready_known, HP. }
      destruct (update_eval D (w_heap w) sp aL aR (md aL) (md aR) eq_refl eq_refl HK) as (h' & sp' & LE & S & EU).
      { apply (ready_mass _ _ HP). left; reflexivity. }
      { apply (ready_mass _ _ HP). right; left; reflexivity. }
      cbn [wstep] in HU. unfold sp_construct in HU. fold sp in HU.
      destruct (negb (massive_at D aL) && negb (sp_Lupper sp)); [rewrite EU in HU; discriminate|].
      destruct (negb (massive_at D aR) && negb (sp_Rupper sp)); [rewrite EU in HU; discriminate|].
      destruct (dmats D (sp_angle sp) (sp_mid sp)); [|rewrite EU in HU; discriminate..].
      destruct EU as (EU & INV & NP). rewrite EU in HU. injection HU as <-.
      assert (E' : nth_error (w_sps w ++ [sp']) (length (w_sps w)) = Some sp').
      { rewrite nth_error_app2, Nat.sub_diag by lia. reflexivity. }
      split; [|exists sp'; cbn [w_sps]; auto].
      constructor; cbn [w_sps w_heap]; [exists sp'; auto|]. eapply all_known_hle; eauto.
    Qed.

    (** What update reports. *)
    Lemma mat_never_throws (lower : bool) (P : particle) e : fst ((if lower then lmat else umat) P) <> Exn e.
    Proof.
      assert (K : forall k f, (forall P e, f P <> Exn e) -> fst (memo_mat (num:=num) k f P) <> Exn e).
      { intros k f Hf. unfold memo_mat. destruct (pa_mat P k); [discriminate|].
        specialize (Hf P e). destruct (f P); cbn; congruence. }
      assert (R : forall c : cell num, forall e, rd c <> Exn e) by (intros [v|v] e0; unfold rd; [|destruct (strict num)]; discriminate).
      assert (PO : forall a b e, polar (num:=num) a b <> Exn e).
      { intros a b e'. unfold polar. destruct (strict num), (tgeb a (tZ 0)); discriminate. }
      destruct lower; apply K; intros Q e'; unfold lmat_value, umat_value;
        repeat match goal with
        | |- obind (rd ?c) _ <> _ => let H := fresh in pose proof (R c e') as H; destruct (rd c); cbn [obind]; [|congruence..]; clear H
        | |- obind (polar ?a ?b) _ <> _ => let H := fresh in pose proof (PO a b e') as H; destruct (polar a b); cbn [obind]; [|congruence..]; clear H
        end; discriminate.
    Qed.
    Lemma dmats_never_throws ps : forall lower e, dmats D lower ps <> Exn e.
    Proof.
      induction ps as [|a ps IH]; intros lower e; simpl; [discriminate|].
      unfold dval. pose proof (mat_never_throws lower (uncached (D a)) e) as K.
      destruct (fst _); cbn [obind]; [|congruence..].
      specialize (IH (negb lower) e). destruct (dmats D (negb lower) ps); cbn; congruence.
    Qed.

    Lemma update_outcome i (sp : sproduct) aL aR w :
      h0 = w_heap w -> nth_error (w_sps w) i = Some sp ->
      sp_L sp = Some aL -> sp_R sp = Some aR ->
      parts_ready md qd h0 (aL :: aR :: sp_mid sp) ->
      fst (wstep (WUpdate i) w) =
        if massless aL && negb (sp_Lupper sp) then Exn LowerLeft
        else if massless aR && negb (sp_Rupper sp) then Exn LowerRight
        else omap (fun _ => RUnit) (chain_mats (sp_angle sp) (map F (sp_mid sp))).
    Proof.
      intros EH E HL HR HP.
      assert (HK : all_known D (w_heap w) (sp_addrs sp)).
      { rewrite <- EH, (sp_addrs_eq sp aL aR HL HR). apply ready_known, HP. }
      destruct (update_eval D (w_heap w) sp aL aR (md aL) (md aR) HL HR HK) as (h' & sp' & LE & S & EU).
      { apply (ready_mass _ _ HP). left; reflexivity. }
      { apply (ready_mass _ _ HP). right; left; reflexivity. }
      rewrite (ready_massive _ aL HP), (ready_massive _ aR HP), !negb_involutive in EU by (simpl; auto).
      rewrite (ready_dmats _ (sp_mid sp) HP) in EU by (intros a Ha; right; right; exact Ha).
      cbn [wstep]. rewrite (on_sp_fst sp_update _ i w sp E).
      destruct (massless aL && negb (sp_Lupper sp)); [rewrite EU; reflexivity|].
      destruct (massless aR && negb (sp_Rupper sp)); [rewrite EU; reflexivity|].
      destruct (chain_mats (sp_angle sp) (map F (sp_mid sp))); [destruct EU as [EU _]|..]; rewrite EU; reflexivity.
    Qed.
    Lemma chain_mats_never_throws ps : forall lower e, chain_mats (num:=num) lower ps <> Exn e.
    Proof.
      induction ps as [|P ps IH]; intros lower e; simpl; [discriminate|].
      pose proof (mat_never_throws lower P e) as K.
      destruct (fst _); cbn [obind]; [|congruence..].
      specialize (IH (negb lower) e). destruct (chain_mats (negb lower) ps); cbn; congruence.
    Qed.
  End At.
End Generic.

(** ** Values once returned are returned again *)
Section Repeat.
  Context {num : Num}.
  Notation sproduct := (sproduct num).
  Notation store := (store num).
  Notation world := (world num).

  (** sp' has all that was cached in sp *)
  Definition ext (sp sp' : sproduct) : Prop :=
    sp_Lmassive sp' = sp_Lmassive sp /\ sp_Rmassive sp' = sp_Rmassive sp /\
    forall a b x, sp_prod sp a b = Some x -> sp_prod sp' a b = Some x.
  Lemma ext_refl sp : ext sp sp.
  Proof. repeat split; auto. Qed.
  Lemma ext_trans s1 s2 s3 : ext s1 s2 -> ext s2 s3 -> ext s1 s3.
  Proof.
    intros (A1 & A2 & A3) (B1 & B2 & B3). split; [congruence|]. split; [congruence|]. eauto.
  Qed.
  Definition keeps {A} (x : ST store A) : Prop := forall h sp, snd (snd (x (h, sp))) = sp.
  Lemma keeps_bind {A B} (x : ST store A) (f : A -> ST store B) :
    keeps x -> (forall a, keeps (f a)) -> keeps (sbind x f).
  Proof.
    intros Hx Hf h sp. specialize (Hx h sp). unfold sbind.
    destruct (x (h, sp)) as [[a|e|u] [h' sp']]; simpl in *; subst; auto. apply Hf.
  Qed.
  Lemma keeps_call {A} a (x : ST (particle num) A) : keeps (call_opt a x).
  Proof.
    intros h sp. destruct a as [a|]; [|reflexivity]. unfold call_opt, call.
    destruct (nth_error h a); [|reflexivity]. destruct (x p); reflexivity.
  Qed.
  Lemma keeps_compute l r : keeps (v_compute (num:=num) l r).
  Proof.
    unfold v_compute. apply keeps_bind; [intros h sp; reflexivity|intros sp].
    apply keeps_bind; [apply keeps_call|intros v].
    apply keeps_bind; [apply keeps_call|intros w]. intros h sp'; reflexivity.
  Qed.
  Lemma memo_ext i j x h (sp : sproduct) : keeps x -> ext sp (snd (snd (v_memo i j x (h, sp)))).
  Proof.
    intros Hx. unfold v_memo, sbind, sgets, smodify, sret. cbn [snd].
    destruct (sp_prod sp i j) as [y|] eqn:E; [apply ext_refl|].
    specialize (Hx h sp). destruct (x (h, sp)) as [[y|e|u] [h' sp']]; cbn in *; subst sp'; try apply ext_refl.
    split; [reflexivity|]. split; [reflexivity|]. intros a b z Hz. cbn.
    destruct (eqb i a && eqb j b) eqn:EE; [|exact Hz].
    apply andb_prop in EE as [E1 E2]. apply eqb_prop in E1, E2. subst. congruence.
  Qed.
  Lemma memo_again i j x h (sp : sproduct) y h' sp' :
    keeps x -> v_memo i j x (h, sp) = (Ok y, (h', sp')) -> sp_prod sp' i j = Some y.
  Proof.
    intros Hx. unfold v_memo, sbind, sgets, smodify, sret. cbn [snd].
    destruct (sp_prod sp i j) as [z|] eqn:E; [intros [= <- <- <-]; exact E|].
    specialize (Hx h sp). destruct (x (h, sp)) as [[z|e|u] [h1 sp1]]; cbn in *; subst sp1; try discriminate.
    intros [= <- <- <-]. cbn. rewrite !eqb_reflx. reflexivity.
  Qed.

  Inductive varg : Type := A0 | A1 (s : Z) | A2 (s t : Z).
  Definition vcall (v : varg) : ST store (CX num) :=
    match v with A0 => v0 | A1 s => v1 s | A2 s t => v2 s t end.
  Definition vw (i : nat) (v : varg) : wcall num :=
    match v with A0 => WV0 i | A1 s => WV1 i s | A2 s t => WV2 i s t end.
  Lemma vw_step i v w : wstep (vw i v) w = smap RVal (on_sp i (vcall v)) w.
  Proof. destruct v; reflexivity. Qed.

  (** v is a memo on one key, chosen by the arguments and the massive flags *)
  Lemma vcall_memo v (sp : sproduct) :
    (exists e, forall h sp', sp_Lmassive sp' = sp_Lmassive sp -> sp_Rmassive sp' = sp_Rmassive sp ->
        vcall v (h, sp') = (Exn e, (h, sp'))) \/
    (exists a b x, (forall sp', keeps (x sp')) /\
        forall h sp', sp_Lmassive sp' = sp_Lmassive sp -> sp_Rmassive sp' = sp_Rmassive sp ->
        vcall v (h, sp') = v_memo a b (x sp') (h, sp')).
  Proof.
    destruct v as [|s|s t]; cbn [vcall].
    - destruct (sp_Lmassive sp || sp_Rmassive sp) eqn:E.
      + left. exists ProductUsage. intros h sp' H1 H2. unfold v0, sbind, sgets. cbn [snd].
        rewrite H1, H2, E. reflexivity.
      + right. exists false, false, (fun _ => v_compute spinor0 spinor0).
        split; [intros; apply keeps_compute|].
        intros h sp' H1 H2. unfold v0. unfold sbind at 1, sgets. cbn [snd]. rewrite H1, H2, E. reflexivity.
    - destruct (sp_Lmassive sp) eqn:EL, (sp_Rmassive sp) eqn:ER.
      + left. exists ProductUsage. intros h sp' H1 H2. unfold v1, sbind, sgets. cbn [snd].
        rewrite H1, H2. reflexivity.
      + right. exists (s >? 0)%Z, false, (fun sp' => v_compute (fun d => spinor2 d s (sp_Lupper sp')) spinor0).
        split; [intros; apply keeps_compute|].
        intros h sp' H1 H2. unfold v1. unfold sbind at 1, sgets. cbn [snd]. rewrite H1, H2. reflexivity.
      + right. exists false, (s >? 0)%Z, (fun sp' => v_compute spinor0 (fun d => spinor2 d s (sp_Rupper sp'))).
        split; [intros; apply keeps_compute|].
        intros h sp' H1 H2. unfold v1. unfold sbind at 1, sgets. cbn [snd]. rewrite H1, H2. reflexivity.
      + left. exists ProductUsage. intros h sp' H1 H2. unfold v1, sbind, sgets. cbn [snd].
        rewrite H1, H2. reflexivity.
    - destruct (negb (sp_Lmassive sp) || negb (sp_Rmassive sp)) eqn:E.
      + left. exists ProductUsage. intros h sp' H1 H2. unfold v2, sbind, sgets. cbn [snd].
        rewrite H1, H2, E. reflexivity.
      + right. exists (s >? 0)%Z, (t >? 0)%Z, (fun sp' => v_compute (fun d => spinor2 d s (sp_Lupper sp')) (fun d => spinor2 d t (sp_Rupper sp'))).
        split; [intros; apply keeps_compute|].
        intros h sp' H1 H2. unfold v2. unfold sbind at 1, sgets. cbn [snd]. rewrite H1, H2, E. reflexivity.
  Qed.
  Lemma vcall_ext v h sp : ext sp (snd (snd (vcall v (h, sp)))).
  Proof.
    destruct (vcall_memo v sp) as [(e & H)|(a & b & x & K & H)]; rewrite H by reflexivity.
    - apply ext_refl.
    - apply memo_ext, K.
  Qed.

  (** calls that do not update or reassign sproduct i; anything else is allowed, changes of
      momenta included *)
  Definition leaves (i : nat) (c : wcall num) : bool :=
    match c with WUpdate k => negb (Nat.eqb k i) | WSAssign k _ => negb (Nat.eqb k i) | _ => true end.

  Lemma on_sp_ext {A} k (f : ST store A) (r : A -> wval num) i w sp :
    nth_error (w_sps w) i = Some sp -> (k = i -> forall h sp, ext sp (snd (snd (f (h, sp))))) ->
    exists sp', nth_error (w_sps (snd (smap r (on_sp k f) w))) i = Some sp' /\ ext sp sp'.
  Proof.
    intros E Hf. rewrite snd_smap. unfold on_sp. destruct (nth_error (w_sps w) k) as [spk|] eqn:Ek.
    2:{ exists sp. split; [exact E|apply ext_refl]. }
    destruct (Nat.eq_dec k i) as [->|Hk].
    - rewrite E in Ek. injection Ek as <-. specialize (Hf eq_refl (w_heap w) sp).
      destruct (f (w_heap w, sp)) as [o [h' sp']]. exists sp'. split; [|exact Hf].
      eapply lset_same; eauto.
    - destruct (f (w_heap w, spk)) as [o [h' sp']]. exists sp. split; [|apply ext_refl].
      cbn. rewrite lset_other by exact Hk. exact E.
  Qed.
  Lemma leaves_ext i c w sp : leaves i c = true -> nth_error (w_sps w) i = Some sp ->
    exists sp', nth_error (w_sps (snd (wstep c w))) i = Some sp' /\ ext sp sp'.
  Proof.
    intros HL E.
    assert (SAME : forall w', w_sps w' = w_sps w -> exists sp', nth_error (w_sps w') i = Some sp' /\ ext sp sp').
    { intros w' ->. exists sp. split; [exact E|apply ext_refl]. }
    assert (APP : forall l, nth_error (w_sps w ++ l) i = Some sp).
    { intros l. rewrite nth_error_app1; [exact E|]. apply nth_error_Some. congruence. }
    destruct c as [g|g m|g q m|a o| |angle pL iLU mid pR iRU|i' j|k|k|k s|k s t]; cbn [wstep].
    - apply SAME; reflexivity.
    - apply SAME; reflexivity.
    - destruct (particle_new g q m) as [[[]|e|u] P]; apply SAME; reflexivity.
    - destruct (nth_error (w_heap w) a); [destruct (pstep o p)|]; apply SAME; reflexivity.
    - exists sp. split; [apply APP|apply ext_refl].
    - destruct (sp_construct _ _ _ _ _ _ _) as [[[]|e|u] [h' sp']].
      + exists sp. split; [apply APP|apply ext_refl].
      + apply SAME; reflexivity.
      + apply SAME; reflexivity.
    - cbn in HL. apply negb_true_iff, Nat.eqb_neq in HL.
      destruct (nth_error (w_sps w) i'); [|apply SAME; reflexivity].
      destruct (nth_error (w_sps w) j); [|apply SAME; reflexivity].
      exists sp. split; [cbn; rewrite lset_other by exact HL; exact E|apply ext_refl].
    - cbn in HL. apply negb_true_iff, Nat.eqb_neq in HL. apply on_sp_ext; [exact E|]. intros; contradiction.
    - apply on_sp_ext; [exact E|]. intros _ h sp'. apply (vcall_ext A0).
    - apply on_sp_ext; [exact E|]. intros _ h sp'. apply (vcall_ext (A1 s)).
    - apply on_sp_ext; [exact E|]. intros _ h sp'. apply (vcall_ext (A2 s t)).
  Qed.
  Lemma leaves_run i cs : forall w sp, forallb (leaves i) cs = true -> nth_error (w_sps w) i = Some sp ->
    exists sp', nth_error (w_sps (snd (wrun cs w))) i = Some sp' /\ ext sp sp'.
  Proof.
    induction cs as [|c cs IH]; intros w sp HL E; simpl in *.
    - exists sp. split; [exact E|apply ext_refl].
    - apply andb_prop in HL as [H1 H2]. destruct (leaves_ext i c w sp H1 E) as (sp1 & E1 & X1).
      destruct (wstep c w) as [r w']. cbn in E1. destruct (IH w' sp1 H2 E1) as (sp2 & E2 & X2).
      destruct (wrun cs w') as [rs w'']. exists sp2. split; [exact E2|eapply ext_trans; eauto].
  Qed.

  Lemma v_again i v w w1 r cs :
    wstep (vw i v) w = (Ok r, w1) -> forallb (leaves i) cs = true ->
    fst (wstep (vw i v) (snd (wrun cs w1))) = Ok r.
  Proof.
    rewrite !vw_step. unfold smap, sbind, on_sp.
    destruct (nth_error (w_sps w) i) as [sp|] eqn:E; [|discriminate].
    destruct (vcall v (w_heap w, sp)) as [[x|e|u] [h1 sp1]] eqn:EV; try discriminate.
    unfold sret. intros [= <- <-] HL.
    destruct (vcall_memo v sp) as [(e & H)|(a & b & y & K & H)].
    { rewrite H in EV by reflexivity. discriminate. }
    rewrite H in EV by reflexivity.
    pose proof (memo_ext a b (y sp) (w_heap w) sp (K sp)) as X. rewrite EV in X. cbn in X.
    pose proof (memo_again a b (y sp) _ sp x h1 sp1 (K sp) EV) as C.
    destruct (leaves_run i cs (mkWorld h1 (lset (w_sps w) i sp1)) sp1 HL) as (sp2 & E2 & X2).
    { cbn. eapply lset_same; eauto. }
    rewrite E2.
    destruct (ext_trans _ _ _ X X2) as (F1 & F2 & _). destruct X2 as (_ & _ & X2).
    rewrite (H _ sp2 F1 F2). unfold v_memo, sbind, sgets, sret. cbn [snd]. rewrite (X2 _ _ _ C). reflexivity.
  Qed.
End Repeat.
