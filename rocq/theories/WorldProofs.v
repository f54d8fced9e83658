(** * Spinor products return what they are defined to be, whatever happened before *)
From Verif Require Import Base Scalar Linear Particle Sproduct ParticleProofs Ready ParticleClaims
  World SpecSproduct.
Open Scope st_scope.

Section WorldProofs.
  Context {num : Num}.
  Notation T := (T num).
  Notation CX := (CX num).
  Notation particle := (particle num).
  Notation sproduct := (sproduct num).
  Notation heap := (heap num).
  Notation store := (store num).
  Notation world := (world num).

  Lemma sbind_Ok {S A B} (x : ST S A) (f : A -> ST S B) s a s' :
    x s = (Ok a, s') -> sbind x f s = f a s'.
  Proof. unfold sbind. intros ->. reflexivity. Qed.

  (** ** Heaps *)
  Lemma hset_same (h : heap) a P Q : nth_error h a = Some Q -> nth_error (hset h a P) a = Some P.
  Proof. revert a; induction h as [|x h IH]; intros [|a]; simpl; intros; try discriminate; auto. Qed.
  Lemma hset_other (h : heap) a b P : a <> b -> nth_error (hset h a P) b = nth_error h b.
  Proof.
    revert a b; induction h as [|x h IH]; intros [|a] [|b] H; simpl; try congruence.
    apply IH. congruence.
  Qed.
  Lemma lset_same {A} (l : list A) i x y : nth_error l i = Some y -> nth_error (lset l i x) i = Some x.
  Proof. revert i; induction l as [|z l IH]; intros [|i]; simpl; intros; try discriminate; auto. Qed.
  Lemma lset_other {A} (l : list A) i j x : i <> j -> nth_error (lset l i x) j = nth_error l j.
  Proof.
    revert i j; induction l as [|z l IH]; intros [|i] [|j] H; simpl; try congruence.
    apply IH. congruence.
  Qed.

  (** h' is h after activity that only fills caches. *)
  Definition hle (h h' : heap) : Prop :=
    forall a P, nth_error h a = Some P ->
      exists P', nth_error h' a = Some P' /\ (coh P -> coh P' /\ uncached P' = uncached P).
  Lemma hle_refl h : hle h h.
  Proof. intros a P H; exists P; auto. Qed.
  Lemma hle_trans h1 h2 h3 : hle h1 h2 -> hle h2 h3 -> hle h1 h3.
  Proof.
    intros H12 H23 a P H. destruct (H12 a P H) as (P2 & H2 & K2).
    destruct (H23 a P2 H2) as (P3 & H3 & K3). exists P3. split; [exact H3|].
    intros HC. destruct (K2 HC) as [C2 E2]. destruct (K3 C2) as [C3 E3]. split; congruence.
  Qed.

  Definition quiet {A} (x : ST store A) : Prop :=
    forall h sp, hle h (fst (snd (x (h, sp)))).
  Lemma quiet_bind {A B} (x : ST store A) (f : A -> ST store B) :
    quiet x -> (forall a, quiet (f a)) -> quiet (sbind x f).
  Proof.
    intros Hx Hf h sp. specialize (Hx h sp). unfold sbind.
    destruct (x (h, sp)) as [[a|e|u] [h' sp']]; simpl in *; auto.
    eapply hle_trans; [exact Hx|]. apply (Hf a h' sp').
  Qed.
  Lemma quiet_ret {A} (a : A) : quiet (sret a).
  Proof. intros h sp; apply hle_refl. Qed.
  Lemma quiet_lift {A} (a : outcome A) : quiet (slift a).
  Proof. intros h sp; apply hle_refl. Qed.
  Lemma quiet_throw {A} e : quiet (sthrow (A:=A) e).
  Proof. intros h sp; apply hle_refl. Qed.
  Lemma quiet_sgets {A} (f : sproduct -> A) : quiet (sgets f).
  Proof. intros h sp; apply hle_refl. Qed.
  Lemma quiet_smodify f : quiet (smodify (num:=num) f).
  Proof. intros h sp; apply hle_refl. Qed.
  Lemma quiet_if {A} (b : bool) (x y : ST store A) : quiet x -> quiet y -> quiet (if b then x else y).
  Proof. destruct b; auto. Qed.
  Lemma quiet_call {A} a (x : ST particle A) : transparent x -> quiet (call a x).
  Proof.
    intros Hx h sp b P HP. unfold call. destruct (nth_error h a) as [Q|] eqn:E; simpl; [|exists P; auto].
    destruct (x Q) as [r Q'] eqn:EX. simpl. destruct (Nat.eq_dec a b) as [->|Hab].
    - rewrite E in HP. injection HP as ->. exists Q'. split; [eapply hset_same; eauto|].
      intros HC. destruct (Hx P HC) as (_ & H2 & H3). rewrite EX in H2, H3. auto.
    - exists P. rewrite hset_other by exact Hab. auto.
  Qed.
  Lemma quiet_call_opt {A} a (x : ST particle A) : transparent x -> quiet (call_opt a x).
  Proof. intros Hx. destruct a; [apply quiet_call, Hx|apply quiet_lift]. Qed.

  Lemma transparent_mass : transparent (sconst (mass (num:=num))).
  Proof. apply transparent_const; reflexivity. Qed.
  Lemma transparent_ul (lower : bool) : transparent (if lower then lmat (num:=num) else umat).
  Proof. destruct lower; [exact (transparent_mat LoMat)|exact (transparent_mat UpMat)]. Qed.

  Lemma quiet_mul_rest ps : forall lower, quiet (mul_rest (num:=num) lower ps).
  Proof.
    induction ps as [|a ps IH]; intros lower; simpl; [apply quiet_ret|].
    apply quiet_bind; [apply quiet_call, transparent_ul|intros m].
    apply quiet_bind; [apply quiet_smodify|intros _]. apply IH.
  Qed.
  Lemma quiet_update : quiet (sp_update (num:=num)).
  Proof.
    unfold sp_update. do 2 (apply quiet_bind; [apply quiet_smodify|intro]).
    do 2 (apply quiet_bind; [apply quiet_sgets|intro]).
    apply quiet_bind; [apply quiet_call_opt, transparent_mass|intro].
    apply quiet_bind; [apply quiet_if; [apply quiet_smodify|apply quiet_ret]|intro].
    apply quiet_bind; [apply quiet_call_opt, transparent_mass|intro].
    apply quiet_bind; [apply quiet_if; [apply quiet_smodify|apply quiet_ret]|intro].
    apply quiet_bind; [apply quiet_sgets|intro sp].
    apply quiet_if; [apply quiet_throw|]. apply quiet_if; [apply quiet_throw|].
    apply quiet_bind; [apply quiet_smodify|intro].
    destruct (sp_mid sp) as [|p ps]; [apply quiet_ret|].
    apply quiet_if; (apply quiet_bind; [|intro; apply quiet_bind; [apply quiet_smodify|intro; apply quiet_mul_rest]]).
    + apply quiet_call, (transparent_ul true).
    + apply quiet_call, (transparent_ul false).
  Qed.
  Lemma quiet_compute (l r : side -> ST particle (cvector num)) :
    (forall d, transparent (l d)) -> (forall d, transparent (r d)) -> quiet (v_compute l r).
  Proof.
    intros Hl Hr. unfold v_compute. apply quiet_bind; [apply quiet_sgets|intros sp].
    apply quiet_bind; [apply quiet_call_opt, Hl|intros vec].
    apply quiet_bind; [apply quiet_call_opt, Hr|intros w]. apply quiet_ret.
  Qed.
  Lemma quiet_memo i j x : quiet x -> quiet (v_memo (num:=num) i j x).
  Proof.
    intros Hx. unfold v_memo. apply quiet_bind; [apply quiet_sgets|intros [c|]]; [apply quiet_ret|].
    apply quiet_bind; [exact Hx|intros y]. apply quiet_bind; [apply quiet_smodify|intros _; apply quiet_ret].
  Qed.
  Lemma quiet_v0 : quiet (v0 (num:=num)).
  Proof.
    apply quiet_bind; [apply quiet_sgets|intros sp]. apply quiet_if; [apply quiet_throw|].
    apply quiet_memo, quiet_compute; apply transparent_spinor0.
  Qed.
  Lemma quiet_v1 s : quiet (v1 (num:=num) s).
  Proof.
    apply quiet_bind; [apply quiet_sgets|intros sp].
    apply quiet_if; apply quiet_if; try apply quiet_throw.
    - apply quiet_memo, quiet_compute; intros; [apply transparent_spinor2|apply transparent_spinor0].
    - apply quiet_memo, quiet_compute; intros; [apply transparent_spinor0|apply transparent_spinor2].
  Qed.
  Lemma quiet_v2 s t : quiet (v2 (num:=num) s t).
  Proof.
    apply quiet_bind; [apply quiet_sgets|intros sp]. apply quiet_if; [apply quiet_throw|].
    apply quiet_memo, quiet_compute; intros; apply transparent_spinor2.
  Qed.

  (** ** Evaluation on known particles *)
  (** [D a]: the particle at address a as its last set_momentum left it. *)
  Variable D : addr -> particle.

  Definition knows (h : heap) (a : addr) : Prop :=
    exists P, nth_error h a = Some P /\ coh P /\ uncached P = uncached (D a).
  Lemma knows_hle h h' a : hle h h' -> knows h a -> knows h' a.
  Proof.
    intros H (P & HP & HC & HU). destruct (H a P HP) as (P' & HP' & K).
    destruct (K HC) as [C' U']. exists P'. split; [exact HP'|]. split; congruence.
  Qed.

  (** The value of an accessor on the known particle. *)
  Definition dval {A} (x : ST particle A) (a : addr) : outcome A := fst (x (uncached (D a))).

  Lemma call_eval {A} (x : ST particle A) a h sp : transparent x -> knows h a ->
    exists h', call a x (h, sp) = (dval x a, (h', sp)) /\ hle h h'.
  Proof.
    intros Hx (P & HP & HC & HU). pose proof (quiet_call a x Hx h sp) as Q. revert Q.
    unfold call, dval. rewrite HP. destruct (Hx P HC) as (H1 & _ & _).
    rewrite <- HU, <- H1. destruct (x P) as [r P']; simpl. intros Q. eexists; split; [reflexivity|exact Q].
  Qed.

  Fixpoint dmats (lower : bool) (ps : list addr) : outcome (list (cmatrix num)) :=
    match ps with
    | [] => Ok []
    | a :: ps' =>
        let! M := dval (if lower then lmat else umat) a in
        let! Ms := dmats (negb lower) ps' in Ok (M :: Ms)
    end.
  Definition all_known (h : heap) (l : list addr) : Prop := forall a, In a l -> knows h a.
  Lemma all_known_hle h h' l : hle h h' -> all_known h l -> all_known h' l.
  Proof. intros H K a Ha. apply (knows_hle h); auto. Qed.

  (** static data of a sproduct *)
  Definition same_static (sp sp' : sproduct) : Prop :=
    sp_L sp' = sp_L sp /\ sp_R sp' = sp_R sp /\ sp_mid sp' = sp_mid sp /\ sp_angle sp' = sp_angle sp /\
    sp_Lupper sp' = sp_Lupper sp /\ sp_Rupper sp' = sp_Rupper sp.
  Lemma same_static_refl sp : same_static sp sp.
  Proof. repeat split. Qed.
  Lemma same_static_trans s1 s2 s3 : same_static s1 s2 -> same_static s2 s3 -> same_static s1 s3.
  Proof. unfold same_static. intuition congruence. Qed.

  Lemma mul_rest_eval ps : forall lower h sp, all_known h ps ->
    exists h', hle h h' /\
    match dmats lower ps with
    | Ok Ms => mul_rest lower ps (h, sp) = (Ok tt, (h', s_pMat (fold_left cm_mul Ms (sp_pMat sp)) sp))
    | Exn e => exists sp', same_static sp sp' /\ mul_rest lower ps (h, sp) = (Exn e, (h', sp'))
    | UB u => exists sp', same_static sp sp' /\ mul_rest lower ps (h, sp) = (UB u, (h', sp'))
    end.
  Proof.
    induction ps as [|a ps IH]; intros lower h sp HK; simpl.
    - exists h. split; [apply hle_refl|]. unfold sret. destruct sp; reflexivity.
    - destruct (call_eval (if lower then lmat else umat) a h sp (transparent_ul lower)) as (h1 & E1 & L1).
      { apply HK; left; reflexivity. }
      unfold sbind, smodify. rewrite !E1. clear E1.
      destruct (dval (if lower then lmat else umat) a) as [M|e|u]; cbn [obind].
      + cbn [fst snd].
        destruct (IH (negb lower) h1 (s_pMat (cm_mul (sp_pMat sp) M) sp)) as (h2 & L2 & E2).
        { apply (all_known_hle h); [exact L1|]. intros b Hb; apply HK; right; exact Hb. }
        exists h2. split; [eapply hle_trans; eauto|].
        destruct (dmats (negb lower) ps) as [Ms|e|u]; cbn [obind].
        * rewrite E2. destruct sp; reflexivity.
        * destruct E2 as (sp' & S2 & E2). exists sp'. split; [exact S2|exact E2].
        * destruct E2 as (sp' & S2 & E2). exists sp'. split; [exact S2|exact E2].
      + exists h1. split; [exact L1|]. exists sp. split; [apply same_static_refl|reflexivity].
      + exists h1. split; [exact L1|]. exists sp. split; [apply same_static_refl|reflexivity].
  Qed.

  Definition sp_addrs (sp : sproduct) : list addr :=
    match sp_L sp with Some a => [a] | None => [] end ++
    match sp_R sp with Some a => [a] | None => [] end ++ sp_mid sp.

  Definition massive_at (a : addr) : bool :=
    match rd (pa_m (D a)) with Ok m => negb (teqb m (tZ 0)) | _ => false end.

  (** The end spinors and the value, from the known particles. *)
  Definition dend (d : side) (massive : bool) (b upper : bool) (a : addr) : outcome (cvector num) :=
    if massive then dval (spinor2 d (if b then 1 else -1)%Z upper) a else dval (spinor0 d) a.
  Definition dvalue (sp : sproduct) (aL aR : addr) (i j : bool) : outcome CX :=
    let! l := dend (left_side (sp_angle sp)) (massive_at aL) i (sp_Lupper sp) aL in
    let! Ms := dmats (sp_angle sp) (sp_mid sp) in
    let! r := dend (right_side (sp_angle sp) (length (sp_mid sp))) (massive_at aR) j (sp_Rupper sp) aR in
    Ok (sandwich l Ms r).

  (** The state of a sproduct after a successful update over known particles. *)
  Record sp_inv (sp : sproduct) (aL aR : addr) : Prop := mkInv {
    inv_L : sp_L sp = Some aL;
    inv_R : sp_R sp = Some aR;
    inv_mL : exists m, rd (pa_m (D aL)) = Ok m;
    inv_mR : exists m, rd (pa_m (D aR)) = Ok m;
    inv_Lm : sp_Lmassive sp = massive_at aL;
    inv_Rm : sp_Rmassive sp = massive_at aR;
    inv_Lu : massive_at aL = false -> sp_Lupper sp = true;
    inv_Ru : massive_at aR = false -> sp_Rupper sp = true;
    inv_mats : exists Ms, dmats (sp_angle sp) (sp_mid sp) = Ok Ms /\
        match Ms with [] => True | M :: Ms' => sp_pMat sp = fold_left cm_mul Ms' M end;
    inv_prod : forall i j x, sp_prod sp i j = Some x -> dvalue sp aL aR i j = Ok x
  }.

  Lemma dval_mass a m : dval (sconst mass) a = Ok m -> rd (pa_m (D a)) = Ok m.
  Proof. exact (fun H => H). Qed.

  Lemma build_pMat_eq angle a ps : build_pMat (num:=num) angle a ps =
    (do m <- call a (if angle then lmat else umat); smodify (s_pMat m) ;; mul_rest (negb angle) ps).
  Proof. destruct angle; reflexivity. Qed.

  (** the second half of update() *)
  Definition update_tail (sp : sproduct) : ST store unit :=
    if negb (sp_Lmassive sp) && negb (sp_Lupper sp) then sthrow LowerLeft
    else if negb (sp_Rmassive sp) && negb (sp_Rupper sp) then sthrow LowerRight
    else
      smodify (s_prod no_prod) ;;
      match sp_mid sp with
      | [] => sret tt
      | a :: ps => build_pMat (sp_angle sp) a ps
      end.

  (** update succeeds exactly when no massless end has a lower index (and the matrices
      are defined), and establishes the invariant. *)
  Lemma update_eval h sp aL aR mL mR :
    sp_L sp = Some aL -> sp_R sp = Some aR -> all_known h (sp_addrs sp) ->
    rd (pa_m (D aL)) = Ok mL -> rd (pa_m (D aR)) = Ok mR ->
    exists h' sp', hle h h' /\ same_static sp sp' /\
    if negb (massive_at aL) && negb (sp_Lupper sp) then sp_update (h, sp) = (Exn LowerLeft, (h', sp'))
    else if negb (massive_at aR) && negb (sp_Rupper sp) then sp_update (h, sp) = (Exn LowerRight, (h', sp'))
    else match dmats (sp_angle sp) (sp_mid sp) with
         | Ok _ => sp_update (h, sp) = (Ok tt, (h', sp')) /\ sp_inv sp' aL aR /\ sp_prod sp' = no_prod
         | Exn e => sp_update (h, sp) = (Exn e, (h', sp'))
         | UB u => sp_update (h, sp) = (UB u, (h', sp'))
         end.
  Proof.
    intros HL HR HK HmL HmR.
    assert (HaL : In aL (sp_addrs sp)). { unfold sp_addrs. rewrite HL. left; reflexivity. }
    assert (HaR : In aR (sp_addrs sp)).
    { unfold sp_addrs. rewrite HL, HR. right; left; reflexivity. }
    assert (Hmid : forall a, In a (sp_mid sp) -> In a (sp_addrs sp)).
    { intros a Ha. unfold sp_addrs. rewrite !in_app_iff. auto. }
    destruct sp as [L R mid pMat Lm Rm angle Lu Ru prod]. cbn in HL, HR. subst L R.
    set (bL := negb (teqb mL (tZ 0))).
    assert (EL : massive_at aL = bL) by (unfold massive_at; rewrite HmL; reflexivity).
    set (bR := negb (teqb mR (tZ 0))).
    assert (ER : massive_at aR = bR) by (unfold massive_at; rewrite HmR; reflexivity).
    set (sp1 := mkSproduct (Some aL) (Some aR) mid pMat false false angle Lu Ru prod).
    set (sp2 := mkSproduct (Some aL) (Some aR) mid pMat bL false angle Lu Ru prod).
    set (sp3 := mkSproduct (Some aL) (Some aR) mid pMat bL bR angle Lu Ru prod).
    destruct (call_eval (sconst mass) aL h sp1 transparent_mass (HK _ HaL)) as (h1 & E1 & L1).
    assert (K1 : knows h1 aR) by (apply (knows_hle h); auto).
    destruct (call_eval (sconst mass) aR h1 sp2 transparent_mass K1) as (h2 & E2 & L2).
    change (dval (sconst mass) aL) with (rd (pa_m (D aL))) in E1. rewrite HmL in E1.
    change (dval (sconst mass) aR) with (rd (pa_m (D aR))) in E2. rewrite HmR in E2.
    assert (L12 : hle h h2) by (eapply hle_trans; eauto).
    assert (E : sp_update (h, mkSproduct (Some aL) (Some aR) mid pMat Lm Rm angle Lu Ru prod)
                = update_tail sp3 (h2, sp3)).
    { unfold sp_update.
      do 4 (etransitivity; [apply sbind_Ok; reflexivity|]).
      etransitivity; [apply sbind_Ok; exact E1|].
      etransitivity; [apply (sbind_Ok _ _ _ tt (h1, sp2)); unfold sp1, sp2; fold bL; destruct bL; reflexivity|].
      etransitivity; [apply sbind_Ok; exact E2|].
      etransitivity; [apply (sbind_Ok _ _ _ tt (h2, sp3)); unfold sp2, sp3; fold bR; destruct bR; reflexivity|].
      etransitivity; [apply sbind_Ok; reflexivity|].
      reflexivity. }
    rewrite E. unfold update_tail.
    cbn [snd sp3 sp_Lmassive sp_Rmassive sp_Lupper sp_Rupper sp_mid sp_angle].
    rewrite EL, ER.
    destruct (negb bL && negb Lu) eqn:T1; [|destruct (negb bR && negb Ru) eqn:T2].
    - exists h2, sp3. repeat split; auto.
    - exists h2, sp3. repeat split; auto.
    - 
      assert (HLu : bL = false -> Lu = true) by (intros ->; destruct Lu; [reflexivity|discriminate]).
      assert (HRu : bR = false -> Ru = true) by (intros ->; destruct Ru; [reflexivity|discriminate]).
      assert (INV : forall pm Ms, dmats angle mid = Ok Ms ->
                match Ms with [] => True | M :: Ms' => pm = fold_left cm_mul Ms' M end ->
                sp_inv (mkSproduct (Some aL) (Some aR) mid pm bL bR angle Lu Ru no_prod) aL aR).
      { intros pm Ms HMs Hpm. constructor;
          cbn [sp_L sp_R sp_mid sp_pMat sp_Lmassive sp_Rmassive sp_angle sp_Lupper sp_Rupper sp_prod];
          rewrite ?EL, ?ER; eauto. unfold no_prod; discriminate. }
      destruct mid as [|a ps].
      + exists h2, (mkSproduct (Some aL) (Some aR) [] pMat bL bR angle Lu Ru no_prod).
        split; [exact L12|]. split; [repeat split|]. cbn [dmats]. split; [reflexivity|].
        split; [apply (INV pMat []); [reflexivity|exact I]|reflexivity].
      + assert (Ka : knows h2 a) by (apply (knows_hle h); [exact L12|apply HK, Hmid; left; reflexivity]).
        assert (Kps : all_known h2 ps).
        { apply (all_known_hle h); [exact L12|]. intros b Hb; apply HK, Hmid; right; exact Hb. }
        set (sp4 := mkSproduct (Some aL) (Some aR) (a :: ps) pMat bL bR angle Lu Ru no_prod).
        destruct (call_eval (if angle then lmat else umat) a h2 sp4 (transparent_ul angle) Ka) as (h3 & E3 & L3).
        assert (EB : build_pMat angle a ps (h2, sp4) =
                  match dval (if angle then lmat else umat) a with
                  | Ok M => mul_rest (negb angle) ps (h3, s_pMat M sp4)
                  | Exn e => (Exn e, (h3, sp4))
                  | UB u => (UB u, (h3, sp4))
                  end).
        { rewrite build_pMat_eq. unfold sbind. rewrite E3.
          destruct (dval (if angle then lmat else umat) a); reflexivity. }
        cbn [dmats].
        assert (ES : sbind (smodify (s_prod no_prod))
                  (fun _ => build_pMat angle a ps) (h2, sp3) = build_pMat angle a ps (h2, sp4)) by reflexivity.
        cbn [sp3 sp_mid sp_angle]. fold sp3. rewrite ES, EB. clear EB ES E3.
        destruct (dval (if angle then lmat else umat) a) as [M|e|u] eqn:EM; cbn [obind].
        * destruct (mul_rest_eval ps (negb angle) h3 (s_pMat M sp4)) as (h4 & L4 & E4).
          { apply (all_known_hle h2); auto. }
          assert (L14 : hle h h4) by (eapply hle_trans; [exact L12|eapply hle_trans; eauto]).
          destruct (dmats (negb angle) ps) as [Ms|e|u] eqn:EMs; cbn [obind].
          -- eexists h4, _. split; [exact L14|]. rewrite E4. split; [|split; [reflexivity|split]].
             ++ repeat split.
             ++ unfold sp4, s_pMat; cbn. apply (INV _ (M :: Ms)); [|reflexivity].
                cbn [dmats]. rewrite EM. cbn [obind]. rewrite EMs. reflexivity.
             ++ reflexivity.
          -- destruct E4 as (sp' & S4 & E4). exists h4, sp'. split; [exact L14|]. split; [exact S4|exact E4].
          -- destruct E4 as (sp' & S4 & E4). exists h4, sp'. split; [exact L14|]. split; [exact S4|exact E4].
        * exists h3, sp4. split; [eapply hle_trans; eauto|]. repeat split.
        * exists h3, sp4. split; [eapply hle_trans; eauto|]. repeat split.
  Qed.

  (** ** v(...) *)
  Lemma rside_eq (angle : bool) n :
    (if angle then (if is_even n then RAngle else RSquare)
     else (if is_even n then RSquare else RAngle)) = right_side angle n.
  Proof. unfold right_side, is_even. destruct angle, (Nat.even n); reflexivity. Qed.

  Lemma dmats_length ps : forall lower Ms, dmats lower ps = Ok Ms -> length Ms = length ps.
  Proof.
    induction ps as [|a ps IH]; intros lower Ms; simpl; [intros [= <-]; reflexivity|].
    destruct (dval (if lower then lmat else umat) a) as [M| |]; cbn; try discriminate.
    destruct (dmats (negb lower) ps) as [Ms'| |] eqn:E; cbn; try discriminate.
    intros [= <-]. simpl. f_equal. eapply IH; eauto.
  Qed.

  Lemma compute_eval (l r : side -> ST particle (cvector num)) h sp aL aR :
    (forall d, transparent (l d)) -> (forall d, transparent (r d)) ->
    sp_inv sp aL aR -> all_known h (sp_addrs sp) ->
    exists h', hle h h' /\ v_compute l r (h, sp) =
      (let! x := dval (l (left_side (sp_angle sp))) aL in
       let! Ms := dmats (sp_angle sp) (sp_mid sp) in
       let! y := dval (r (right_side (sp_angle sp) (length (sp_mid sp)))) aR in
       Ok (sandwich x Ms y), (h', sp)).
  Proof.
    intros Hl Hr INV HK.
    assert (KL : knows h aL). { apply HK. unfold sp_addrs. rewrite (inv_L _ _ _ INV). left; reflexivity. }
    assert (KR : knows h aR).
    { apply HK. unfold sp_addrs. rewrite (inv_L _ _ _ INV), (inv_R _ _ _ INV). right; left; reflexivity. }
    destruct (inv_mats _ _ _ INV) as (Ms & EM & EP). rewrite EM. cbn [obind].
    unfold v_compute. unfold sbind at 1, sgets. cbn [snd].
    change (if sp_angle sp then LAngle else LSquare) with (left_side (sp_angle sp)).
    rewrite (inv_L _ _ _ INV), (inv_R _ _ _ INV). cbn [call_opt]. rewrite rside_eq.
    destruct (call_eval (l (left_side (sp_angle sp))) aL h sp (Hl _) KL) as (h1 & E1 & L1).
    unfold sbind at 1. rewrite E1.
    destruct (dval (l (left_side (sp_angle sp))) aL) as [x|e|u]; cbn [obind]; [|exists h1; auto..].
    assert (KR1 : knows h1 aR) by (apply (knows_hle h); auto).
    destruct (call_eval (r (right_side (sp_angle sp) (length (sp_mid sp)))) aR h1 sp (Hr _) KR1) as (h2 & E2 & L2).
    unfold sbind. rewrite E2.
    exists h2. split; [eapply hle_trans; eauto|].
    destruct (dval (r (right_side (sp_angle sp) (length (sp_mid sp)))) aR) as [y|e|u]; cbn [obind]; try reflexivity.
    unfold sret. f_equal. f_equal. apply dmats_length in EM. unfold sandwich.
    destruct Ms as [|M Ms'], (sp_mid sp) as [|a ps]; try discriminate EM; [reflexivity|].
    rewrite EP. reflexivity.
  Qed.

  Lemma sp_inv_prod1 sp aL aR i j x :
    sp_inv sp aL aR -> dvalue sp aL aR i j = Ok x -> sp_inv (s_prod1 i j x sp) aL aR.
  Proof.
    intros [] Hx. constructor; auto.
    intros i' j' x'. cbn. destruct (eqb i i' && eqb j j') eqn:E.
    - apply andb_prop in E as [E1 E2]. apply eqb_prop in E1, E2. subst i' j'. intros [= <-]. exact Hx.
    - apply inv_prod0.
  Qed.

  (** One call of v: what is returned and what is kept. *)
  Lemma memo_eval i j compute o h h' sp aL aR :
    sp_inv sp aL aR -> compute (h, sp) = (o, (h', sp)) -> hle h h' ->
    (forall x, o = Ok x -> dvalue sp aL aR i j = Ok x) ->
    exists h'' sp', hle h h'' /\ same_static sp sp' /\ sp_inv sp' aL aR /\
      v_memo i j compute (h, sp) =
        (match sp_prod sp i j with Some x => Ok x | None => o end, (h'', sp')).
  Proof.
    intros INV E L Ho. unfold v_memo. unfold sbind at 1, sgets. cbn [snd].
    destruct (sp_prod sp i j) as [x|] eqn:EP.
    - exists h, sp. split; [apply hle_refl|]. split; [apply same_static_refl|]. split; [exact INV|reflexivity].
    - unfold sbind, smodify, sret. rewrite E. destruct o as [x|e|u].
      + exists h', (s_prod1 i j x sp). split; [exact L|]. split; [repeat split|].
        split; [apply sp_inv_prod1; auto|reflexivity].
      + exists h', sp. split; [exact L|]. split; [apply same_static_refl|]. auto.
      + exists h', sp. split; [exact L|]. split; [apply same_static_refl|]. auto.
  Qed.

  Definition spin_of (b : bool) : Z := if b then 1%Z else (-1)%Z.
  Lemma spin_of_pos s : (s = 1 \/ s = -1)%Z -> spin_of (s >? 0)%Z = s.
  Proof. intros [-> | ->]; reflexivity. Qed.
  Lemma spinor2_Ok_spin d s u (P : particle) v : fst (spinor2 d s u P) = Ok v -> (s = 1 \/ s = -1)%Z.
  Proof.
    unfold spinor2. destruct (negb (s =? 1)%Z && negb (s =? -1)%Z) eqn:E; [discriminate|].
    intros _. apply spin_test_f in E. exact E.
  Qed.

  Lemma v0_eval h sp aL aR : sp_inv sp aL aR -> all_known h (sp_addrs sp) ->
    exists h' sp', hle h h' /\ same_static sp sp' /\ sp_inv sp' aL aR /\
      v0 (h, sp) = (if massive_at aL || massive_at aR then Exn ProductUsage
                    else dvalue sp aL aR false false, (h', sp')).
  Proof.
    intros INV HK. unfold v0. rewrite (sbind_Ok _ _ (h, sp) sp (h, sp)) by reflexivity.
    rewrite (inv_Lm _ _ _ INV), (inv_Rm _ _ _ INV).
    destruct (massive_at aL || massive_at aR) eqn:EM.
    - exists h, sp. split; [apply hle_refl|]. split; [apply same_static_refl|]. auto.
    - apply orb_false_elim in EM as [EL ER].
      destruct (compute_eval spinor0 spinor0 h sp aL aR transparent_spinor0 transparent_spinor0 INV HK)
        as (h1 & L1 & E1).
      assert (ED : dvalue sp aL aR false false =
        (let! x := dval (spinor0 (left_side (sp_angle sp))) aL in
         let! Ms := dmats (sp_angle sp) (sp_mid sp) in
         let! y := dval (spinor0 (right_side (sp_angle sp) (length (sp_mid sp)))) aR in
         Ok (sandwich x Ms y))).
      { unfold dvalue, dend. rewrite EL, ER. reflexivity. }
      rewrite <- ED in E1.
      destruct (memo_eval false false _ _ h h1 sp aL aR INV E1 L1) as (h2 & sp2 & L2 & S2 & I2 & E2).
      { auto. }
      exists h2, sp2. split; [exact L2|]. split; [exact S2|]. split; [exact I2|].
      rewrite E2. f_equal. destruct (sp_prod sp false false) as [x|] eqn:EP; [|reflexivity].
      symmetry. apply (inv_prod _ _ _ INV _ _ _ EP).
  Qed.

  (** v(spin), left end massive.  For a spin other than +-1 either the cached value for
      its sign comes back or BadSpin is thrown. *)
  Definition spin_res (sp : sproduct) (aL aR : addr) (i j valid : bool) : outcome CX :=
    if valid then dvalue sp aL aR i j
    else match sp_prod sp i j with Some x => Ok x | None => Exn BadSpin end.
  Definition spinb (s : Z) : bool := (s =? 1)%Z || (s =? -1)%Z.
  Lemma spinb_true s : spinb s = true <-> (s = 1 \/ s = -1)%Z.
  Proof. unfold spinb. rewrite orb_true_iff, !Z.eqb_eq. reflexivity. Qed.
  Lemma dval_spinor2_bad d s u a : spinb s = false -> dval (spinor2 d s u) a = Exn BadSpin.
  Proof.
    unfold spinb, dval, spinor2. intros H. apply orb_false_elim in H as [-> ->]. reflexivity.
  Qed.

  Lemma dval_spinor0_ok d a : massive_at a = false -> (exists m, rd (pa_m (D a)) = Ok m) ->
    exists v, dval (spinor0 d) a = Ok v.
  Proof.
    intros H (m & Hm). unfold massive_at in H. rewrite Hm in H. apply negb_false_iff in H.
    unfold dval, spinor0, memo_vec. cbn. rewrite Hm. cbn. rewrite H. cbn. eauto.
  Qed.
  Lemma dval_spinor2_ok d b u a : massive_at a = true ->
    exists v, dval (spinor2 d (spin_of b) u) a = Ok v.
  Proof.
    intros H. unfold massive_at in H. destruct (rd (pa_m (D a))) as [m| |] eqn:Hm; try discriminate.
    apply negb_true_iff in H.
    unfold dval, spinor2, memo_vec. destruct b; cbn; rewrite Hm; cbn; rewrite H; cbn; eauto.
  Qed.

  Lemma v1_eval s h sp aL aR : sp_inv sp aL aR -> all_known h (sp_addrs sp) ->
    exists h' sp', hle h h' /\ same_static sp sp' /\ sp_inv sp' aL aR /\
      v1 s (h, sp) =
        (if massive_at aL then
           if massive_at aR then Exn ProductUsage else spin_res sp aL aR (s >? 0)%Z false (spinb s)
         else if massive_at aR then spin_res sp aL aR false (s >? 0)%Z (spinb s)
              else Exn ProductUsage, (h', sp')).
  Proof.
    intros INV HK. unfold v1. rewrite (sbind_Ok _ _ (h, sp) sp (h, sp)) by reflexivity.
    rewrite (inv_Lm _ _ _ INV), (inv_Rm _ _ _ INV).
    assert (SAME : forall o, exists h' sp', hle h h' /\ same_static sp sp' /\ sp_inv sp' aL aR /\
              ((o, (h, sp)) : outcome CX * store) = (o, (h', sp'))).
    { intros o. exists h, sp. split; [apply hle_refl|]. split; [apply same_static_refl|]. auto. }
    destruct (massive_at aL) eqn:EL.
    - destruct (massive_at aR) eqn:ER; [apply SAME|].
      destruct (compute_eval (fun d => spinor2 d s (sp_Lupper sp)) spinor0 h sp aL aR
                  (fun d => transparent_spinor2 d s _) transparent_spinor0 INV HK) as (h1 & L1 & E1).
      cbn beta in E1.
      destruct (spinb s) eqn:ES.
      + assert (ED : dvalue sp aL aR (s >? 0)%Z false =
          (let! x := dval (spinor2 (left_side (sp_angle sp)) s (sp_Lupper sp)) aL in
           let! Ms := dmats (sp_angle sp) (sp_mid sp) in
           let! y := dval (spinor0 (right_side (sp_angle sp) (length (sp_mid sp)))) aR in
           Ok (sandwich x Ms y))).
        { unfold dvalue, dend. rewrite EL, ER. fold (spin_of (s >? 0)%Z).
          rewrite spin_of_pos by (apply spinb_true, ES). reflexivity. }
        rewrite <- ED in E1.
        destruct (memo_eval (s >? 0)%Z false _ _ h h1 sp aL aR INV E1 L1) as (h2 & sp2 & L2 & S2 & I2 & E2).
        { auto. }
        exists h2, sp2. split; [exact L2|]. split; [exact S2|]. split; [exact I2|].
        rewrite E2. f_equal. unfold spin_res.
        destruct (sp_prod sp (s >? 0)%Z false) as [x|] eqn:EP; [|reflexivity].
        symmetry. apply (inv_prod _ _ _ INV _ _ _ EP).
      + rewrite (dval_spinor2_bad _ _ _ _ ES) in E1. cbn [obind] in E1.
        destruct (memo_eval (s >? 0)%Z false _ _ h h1 sp aL aR INV E1 L1) as (h2 & sp2 & L2 & S2 & I2 & E2).
        { discriminate. }
        exists h2, sp2. split; [exact L2|]. split; [exact S2|]. split; [exact I2|]. exact E2.
    - destruct (massive_at aR) eqn:ER; [|apply SAME].
      destruct (compute_eval spinor0 (fun d => spinor2 d s (sp_Rupper sp)) h sp aL aR
                  transparent_spinor0 (fun d => transparent_spinor2 d s _) INV HK) as (h1 & L1 & E1).
      cbn beta in E1.
      destruct (spinb s) eqn:ES.
      + assert (ED : dvalue sp aL aR false (s >? 0)%Z =
          (let! x := dval (spinor0 (left_side (sp_angle sp))) aL in
           let! Ms := dmats (sp_angle sp) (sp_mid sp) in
           let! y := dval (spinor2 (right_side (sp_angle sp) (length (sp_mid sp))) s (sp_Rupper sp)) aR in
           Ok (sandwich x Ms y))).
        { unfold dvalue, dend. rewrite EL, ER. fold (spin_of (s >? 0)%Z).
          rewrite spin_of_pos by (apply spinb_true, ES). reflexivity. }
        rewrite <- ED in E1.
        destruct (memo_eval false (s >? 0)%Z _ _ h h1 sp aL aR INV E1 L1) as (h2 & sp2 & L2 & S2 & I2 & E2).
        { auto. }
        exists h2, sp2. split; [exact L2|]. split; [exact S2|]. split; [exact I2|].
        rewrite E2. f_equal. unfold spin_res.
        destruct (sp_prod sp false (s >? 0)%Z) as [x|] eqn:EP; [|reflexivity].
        symmetry. apply (inv_prod _ _ _ INV _ _ _ EP).
      + destruct (dval_spinor0_ok (left_side (sp_angle sp)) aL EL (inv_mL _ _ _ INV)) as (x0 & EX).
        destruct (inv_mats _ _ _ INV) as (Ms & EMs & _).
        rewrite (dval_spinor2_bad _ _ _ _ ES), EX, EMs in E1. cbn [obind] in E1.
        destruct (memo_eval false (s >? 0)%Z _ _ h h1 sp aL aR INV E1 L1) as (h2 & sp2 & L2 & S2 & I2 & E2).
        { discriminate. }
        exists h2, sp2. split; [exact L2|]. split; [exact S2|]. split; [exact I2|]. exact E2.
  Qed.

  Lemma v2_eval s t h sp aL aR : sp_inv sp aL aR -> all_known h (sp_addrs sp) ->
    exists h' sp', hle h h' /\ same_static sp sp' /\ sp_inv sp' aL aR /\
      v2 s t (h, sp) =
        (if massive_at aL && massive_at aR
         then spin_res sp aL aR (s >? 0)%Z (t >? 0)%Z (spinb s && spinb t)
         else Exn ProductUsage, (h', sp')).
  Proof.
    intros INV HK. unfold v2. rewrite (sbind_Ok _ _ (h, sp) sp (h, sp)) by reflexivity.
    rewrite (inv_Lm _ _ _ INV), (inv_Rm _ _ _ INV).
    rewrite <- negb_andb. destruct (massive_at aL && massive_at aR) eqn:EM; cbn [negb].
    2:{ exists h, sp. split; [apply hle_refl|]. split; [apply same_static_refl|]. auto. }
    apply andb_prop in EM as [EL ER].
    destruct (compute_eval (fun d => spinor2 d s (sp_Lupper sp)) (fun d => spinor2 d t (sp_Rupper sp)) h sp aL aR
                (fun d => transparent_spinor2 d s _) (fun d => transparent_spinor2 d t _) INV HK) as (h1 & L1 & E1).
    cbn beta in E1.
    destruct (spinb s && spinb t) eqn:ES.
    - apply andb_prop in ES as [ES ET].
      assert (ED : dvalue sp aL aR (s >? 0)%Z (t >? 0)%Z =
          (let! x := dval (spinor2 (left_side (sp_angle sp)) s (sp_Lupper sp)) aL in
           let! Ms := dmats (sp_angle sp) (sp_mid sp) in
           let! y := dval (spinor2 (right_side (sp_angle sp) (length (sp_mid sp))) t (sp_Rupper sp)) aR in
           Ok (sandwich x Ms y))).
      { unfold dvalue, dend. rewrite EL, ER. fold (spin_of (s >? 0)%Z). fold (spin_of (t >? 0)%Z).
        rewrite !spin_of_pos by (apply spinb_true; assumption). reflexivity. }
      rewrite <- ED in E1.
      destruct (memo_eval (s >? 0)%Z (t >? 0)%Z _ _ h h1 sp aL aR INV E1 L1) as (h2 & sp2 & L2 & S2 & I2 & E2).
      { auto. }
      exists h2, sp2. split; [exact L2|]. split; [exact S2|]. split; [exact I2|].
      rewrite E2. f_equal. unfold spin_res.
      destruct (sp_prod sp (s >? 0)%Z (t >? 0)%Z) as [x|] eqn:EP; [|reflexivity].
      symmetry. apply (inv_prod _ _ _ INV _ _ _ EP).
    - assert (EB : (let! x := dval (spinor2 (left_side (sp_angle sp)) s (sp_Lupper sp)) aL in
           let! Ms := dmats (sp_angle sp) (sp_mid sp) in
           let! y := dval (spinor2 (right_side (sp_angle sp) (length (sp_mid sp))) t (sp_Rupper sp)) aR in
           Ok (sandwich x Ms y)) = Exn BadSpin).
      { destruct (spinb s) eqn:E; cbn [andb] in ES.
        - destruct (inv_mats _ _ _ INV) as (Ms & EMs & _).
          destruct (dval_spinor2_ok (left_side (sp_angle sp)) (s >? 0)%Z (sp_Lupper sp) aL EL) as (x & EX).
          rewrite spin_of_pos in EX by (apply spinb_true, E).
          rewrite EX, EMs, (dval_spinor2_bad _ _ _ _ ES). reflexivity.
        - rewrite (dval_spinor2_bad _ _ _ _ E). reflexivity. }
      rewrite EB in E1.
      destruct (memo_eval (s >? 0)%Z (t >? 0)%Z _ _ h h1 sp aL aR INV E1 L1) as (h2 & sp2 & L2 & S2 & I2 & E2).
      { discriminate. }
      exists h2, sp2. split; [exact L2|]. split; [exact S2|]. split; [exact I2|]. exact E2.
  Qed.

  (** ** Whole programs *)
  (** A call that does not change a particle in [A] and does not reassign sproduct i. *)
  Definition harmless (i : nat) (A : list addr) (c : wcall num) : bool :=
    match c with
    | WPart a o => is_accessor o || negb (existsb (Nat.eqb a) A)
    | WSAssign i' _ => negb (Nat.eqb i' i)
    | _ => true
    end.

  Lemma dvalue_static sp sp' aL aR i j : same_static sp sp' -> dvalue sp' aL aR i j = dvalue sp aL aR i j.
  Proof. intros (_ & _ & H1 & H2 & H3 & H4). unfold dvalue. rewrite H1, H2, H3, H4. reflexivity. Qed.
  Lemma sp_addrs_static sp sp' : same_static sp sp' -> sp_addrs sp' = sp_addrs sp.
  Proof. intros (H1 & H2 & H3 & _). unfold sp_addrs. rewrite H1, H2, H3. reflexivity. Qed.

  Record winv (i : nat) (sp0 : sproduct) (aL aR : addr) (w : world) : Prop := mkWinv {
    winv_sp : exists sp, nth_error (w_sps w) i = Some sp /\ same_static sp0 sp /\ sp_inv sp aL aR;
    winv_heap : all_known (w_heap w) (sp_addrs sp0)
  }.

  Lemma hle_app h l : hle h (h ++ l).
  Proof.
    intros a P H. exists P. split; [|auto]. rewrite nth_error_app1; [exact H|].
    apply nth_error_Some. congruence.
  Qed.

  (** any method of any sproduct that is quiet and keeps the invariant of number i *)
  Lemma winv_on_sp {A} i sp0 aL aR k (f : ST store A) (g : A -> wval num) w :
    winv i sp0 aL aR w -> quiet f ->
    (forall h sp, sp_inv sp aL aR -> all_known h (sp_addrs sp) ->
       exists o h' sp', f (h, sp) = (o, (h', sp')) /\ same_static sp sp' /\ sp_inv sp' aL aR) ->
    winv i sp0 aL aR (snd (smap g (on_sp k f) w)).
  Proof.
    intros [(sp & E & S0 & INV) HK] Q Hf. rewrite snd_smap. unfold on_sp.
    destruct (nth_error (w_sps w) k) as [spk|] eqn:Ek; [|constructor; [exists sp; auto|exact HK]].
    pose proof (Q (w_heap w) spk) as HQ.
    destruct (Nat.eq_dec k i) as [->|Hki].
    - rewrite E in Ek. injection Ek as <-.
      destruct (Hf (w_heap w) sp INV) as (o & h' & sp' & Ef & S1 & I1).
      { rewrite (sp_addrs_static sp0 sp S0). exact HK. }
      rewrite Ef in HQ |- *. cbn in HQ |- *. constructor; cbn.
      + exists sp'. split; [eapply lset_same; eauto|]. split; [eapply same_static_trans; eauto|exact I1].
      + apply (all_known_hle (w_heap w)); auto.
    - destruct (f (w_heap w, spk)) as [o [h' sp']]. cbn in HQ |- *. constructor; cbn.
      + exists sp. rewrite lset_other by exact Hki. auto.
      + apply (all_known_hle (w_heap w)); auto.
  Qed.

  Lemma in_existsb a A : In a A -> existsb (Nat.eqb a) A = true.
  Proof. intros H. apply existsb_exists. exists a. split; [exact H|apply Nat.eqb_refl]. Qed.

  Lemma winv_step i sp0 aL aR c w :
    winv i sp0 aL aR w -> harmless i (sp_addrs sp0) c = true -> winv i sp0 aL aR (snd (wstep c w)).
  Proof.
    intros HW HH. pose proof HW as [(sp & E & S0 & INV) HK].
    destruct c as [g|g m|g q m|a o| |angle pL iLU mid pR iRU|i' j|k|k|k s|k s t]; cbn [wstep].
    - constructor; cbn; [exists sp; auto|]. apply (all_known_hle (w_heap w)); [apply hle_app|exact HK].
    - constructor; cbn; [exists sp; auto|]. apply (all_known_hle (w_heap w)); [apply hle_app|exact HK].
    - destruct (particle_new g q m) as [[[]|e|u] P]; cbn; auto.
      constructor; cbn; [exists sp; auto|]. apply (all_known_hle (w_heap w)); [apply hle_app|exact HK].
    - destruct (nth_error (w_heap w) a) as [P|] eqn:Ea; [|exact HW].
      destruct (pstep o P) as [r P'] eqn:Eo. cbn. constructor; cbn; [exists sp; auto|].
      cbn in HH. apply orb_prop in HH as [Ho|Ha].
      + intros b Hb. destruct (Nat.eq_dec a b) as [->|Hab].
        * destruct (HK b Hb) as (Q & HQ & HC & HU). rewrite Ea in HQ. injection HQ as <-.
          destruct (transparent_accessor o Ho P HC) as (_ & T2 & T3). rewrite Eo in T2, T3. cbn in T2, T3.
          exists P'. split; [eapply hset_same; eauto|]. split; [exact T2|congruence].
        * destruct (HK b Hb) as (Q & HQ & HC & HU). exists Q. rewrite hset_other by exact Hab. auto.
      + intros b Hb. destruct (HK b Hb) as (Q & HQ & HC & HU). exists Q.
        rewrite hset_other; [auto|]. intros ->. apply negb_true_iff in Ha.
        rewrite (in_existsb b _ Hb) in Ha. discriminate.
    - constructor; cbn; [|exact HK]. exists sp. rewrite nth_error_app1; [auto|].
      apply nth_error_Some. congruence.
    - unfold sp_construct.
      pose proof (quiet_update (w_heap w) (mkSproduct (Some pL) (Some pR) mid cmatrix_zero false false angle iLU iRU no_prod)) as Q.
      destruct (sp_update _) as [[[]|e|u] [h' sp']]; cbn in Q |- *; constructor; cbn;
        try (exists sp; rewrite ?nth_error_app1; auto; apply nth_error_Some; congruence);
        try (apply (all_known_hle (w_heap w)); auto).
    - cbn in HH. apply negb_true_iff, Nat.eqb_neq in HH.
      destruct (nth_error (w_sps w) i') as [s1|]; [|exact HW].
      destruct (nth_error (w_sps w) j) as [s2|]; [|exact HW]. cbn. constructor; cbn; [|exact HK].
      exists sp. rewrite lset_other by exact HH. auto.
    - apply winv_on_sp; [exact HW|apply quiet_update|]. intros h spk Ik Kk.
      destruct (inv_mL _ _ _ Ik) as (mL & HmL). destruct (inv_mR _ _ _ Ik) as (mR & HmR).
      destruct (update_eval h spk aL aR mL mR (inv_L _ _ _ Ik) (inv_R _ _ _ Ik) Kk HmL HmR)
        as (h' & sp' & _ & S' & EU).
      assert (TL : negb (massive_at aL) && negb (sp_Lupper spk) = false).
      { pose proof (inv_Lu _ _ _ Ik) as X. destruct (massive_at aL); [reflexivity|]. rewrite X by reflexivity. reflexivity. }
      assert (TR : negb (massive_at aR) && negb (sp_Rupper spk) = false).
      { pose proof (inv_Ru _ _ _ Ik) as X. destruct (massive_at aR); [reflexivity|]. rewrite X by reflexivity. reflexivity. }
      rewrite TL, TR in EU. destruct (inv_mats _ _ _ Ik) as (Ms & EMs & _). rewrite EMs in EU.
      destruct EU as (EU & IU & _). exists (Ok tt), h', sp'. auto.
    - apply winv_on_sp; [exact HW|apply quiet_v0|]. intros h spk Ik Kk.
      destruct (v0_eval h spk aL aR Ik Kk) as (h' & sp' & _ & S' & I' & E'). eauto 6.
    - apply winv_on_sp; [exact HW|apply quiet_v1|]. intros h spk Ik Kk.
      destruct (v1_eval s h spk aL aR Ik Kk) as (h' & sp' & _ & S' & I' & E'). eauto 6.
    - apply winv_on_sp; [exact HW|apply quiet_v2|]. intros h spk Ik Kk.
      destruct (v2_eval s t h spk aL aR Ik Kk) as (h' & sp' & _ & S' & I' & E'). eauto 6.
  Qed.

  Lemma winv_run i sp0 aL aR cs : forall w,
    winv i sp0 aL aR w -> forallb (harmless i (sp_addrs sp0)) cs = true ->
    winv i sp0 aL aR (snd (wrun cs w)).
  Proof.
    induction cs as [|c cs IH]; intros w HW HH; simpl in *; [exact HW|].
    apply andb_prop in HH as [H1 H2]. pose proof (winv_step i sp0 aL aR c w HW H1) as HW'.
    destruct (wstep c w) as [r w']. cbn in HW'. specialize (IH w' HW' H2).
    destruct (wrun cs w') as [rs w'']. exact IH.
  Qed.
End WorldProofs.
