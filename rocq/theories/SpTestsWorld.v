(** * The particles and spinor products of a pass of tests/sproduct.cpp *)
From Coq Require Import Reals Lra Lia QArith Qreals.
From Coquelicot Require Import Complex.
From Verif Require Import Base Scalar Linear Particle ParticleProofs Sproduct RealNum ParticleReal Ready ParticleClaims
  World SpecSproduct SpecChain WorldProofs SproductClaims SpinorReal ChainReal Utilities UtilReal Harness PropsUtil
  TestHarness UnitTests PropsUnit SpTests SpTestsReal.
Close Scope Q_scope.
Open Scope R_scope.

Section W.
  Variables (st : bool) (eps : R).
  Hypothesis He : 0 <= eps.
  Notation num := (RN st eps).
  Notation rmom := (vec4 R).
  Notation legs_t := (list (R * rmom)).
  Notation world := (World.world num).
  Notation sproduct := (Sproduct.sproduct num).

  Definition md (l : legs_t) (a : nat) : R := fst (nth a l (0, V4 0 0 0 0)).
  Definition qd (l : legs_t) (a : nat) : rmom := snd (nth a l (0, V4 0 0 0 0)).
  Definition good_leg (mq : R * rmom) : Prop := on_shell (fst mq) (snd mq) /\ 0 < v_0 (snd mq).
  Definition h_addrs (h : shape) : list nat := h_L h :: h_R h :: h_mid h.
  Definition tmpl (h : shape) : sproduct :=
    mkSproduct (Some (h_L h)) (Some (h_R h)) (h_mid h) cmatrix_zero false false (h_angle h) (h_Lu h) (h_Ru h) no_prod.
  Definition fits_in (n : nat) (h : shape) : Prop := forall a, In a (h_addrs h) -> (a < n)%nat.
  Definition index_ok (l : legs_t) (h : shape) : Prop := (md l (h_L h) = 0 -> h_Lu h = true) /\ (md l (h_R h) = 0 -> h_Ru h = true).

  Definition sps_ok (D : addr -> particle num) (hs : list shape) (U : nat -> bool) (sps : list sproduct) : Prop :=
    length sps = length hs /\ forall i h, nth_error hs i = Some h ->
      exists sp, nth_error sps i = Some sp /\ same_static (tmpl h) sp /\ (U i = true -> sp_inv D sp (h_L h) (h_R h)).
  Definition KW (l : legs_t) (hs : list shape) (U : nat -> bool) (w : world) : Prop :=
    exists g0 h0, parts_ready (num:=num) (md l) (qd l) h0 (seq 0 (length l)) /\
      all_known (at_ (num:=num) g0 h0) (w_heap w) (seq 0 (length l)) /\ sps_ok (at_ (num:=num) g0 h0) hs U (w_sps w).

  Lemma in_seq_lt a n : (a < n)%nat -> In a (seq 0 n).
  Proof. intros H. apply in_seq. lia. Qed.
  Lemma parts_sub l h0 A : (forall a, In a A -> (a < length l)%nat) ->
    parts_ready (num:=num) (md l) (qd l) h0 (seq 0 (length l)) -> parts_ready (num:=num) (md l) (qd l) h0 A.
  Proof. intros HA H a Ha. apply H, in_seq_lt, HA, Ha. Qed.
  Lemma new_from_ready g m (q : rmom) (P : particle num) : ready (num:=num) m q P -> ready (num:=num) m q (snd (particle_new (num:=num) g q m)).
  Proof.
    intros HR. pose proof (ready_shell st eps m q P HR) as HS.
    destruct (particle_new_real st eps g q m) as [(F & _)|(_ & P' & E & _)]; [lra|].
    rewrite E. exact (ready_new (num:=num) g m q P' E).
  Qed.

  (** ** reading *)
  Lemma knows_read l h0 g0 h a : parts_ready (num:=num) (md l) (qd l) h0 (seq 0 (length l)) ->
    all_known (at_ (num:=num) g0 h0) h (seq 0 (length l)) -> (a < length l)%nat ->
    exists P, nth_error h a = Some P /\ rd (pa_m P) = Ok (md l a) /\
      rd (f_p0 P) = Ok (v_0 (qd l a)) /\ rd (f_p1 P) = Ok (v_1 (qd l a)) /\ rd (f_p2 P) = Ok (v_2 (qd l a)) /\ rd (f_p3 P) = Ok (v_3 (qd l a)).
  Proof.
    intros HP HK Ha. destruct (HK a (in_seq_lt _ _ Ha)) as (P & E & HC & HU). exists P. split; [exact E|].
    destruct (HP a (in_seq_lt _ _ Ha)) as (P0 & E0 & HR). rewrite (at_some _ _ _ _ E0) in HU.
    assert (K : forall (A : Type) (f : particle num -> outcome A) r, (forall Q, f (uncached Q) = f Q) ->
              (forall P1, described (md l a) (qd l a) P1 -> f P1 = r) -> f P = r).
    { intros A f r Hf Hr.
      destruct (ready_described st eps (sconst f) _ _ _ (transparent_const f Hf) HR) as (_ & P1 & HD & E1).
      unfold sconst in E1. cbn [fst] in E1. rewrite <- Hf, HU, Hf, E1. apply Hr, HD. }
    split; [|split; [|split; [|split]]].
    - apply (K _ (fun P => rd (pa_m P))); [reflexivity|]. intros P1 HD. exact (de_m _ _ _ _ _ HD).
    - apply (K _ (fun P => rd (f_p0 P))); [reflexivity|]. intros P1 HD. exact (de_p0 _ _ _ _ _ HD).
    - apply (K _ (fun P => rd (f_p1 P))); [reflexivity|]. intros P1 HD. exact (de_p1 _ _ _ _ _ HD).
    - apply (K _ (fun P => rd (f_p2 P))); [reflexivity|]. intros P1 HD. exact (de_p2 _ _ _ _ _ HD).
    - apply (K _ (fun P => rd (f_p3 P))); [reflexivity|]. intros P1 HD. exact (de_p3 _ _ _ _ _ HD).
  Qed.
  Lemma get_all_eval l hs U w a : KW l hs U w -> (a < length l)%nat -> get_all (num:=num) a w = (Ok (qd l a), w).
  Proof.
    intros (g0 & h0 & HP & HK & _) Ha. destruct (knows_read l h0 g0 _ a HP HK Ha) as (P & E & _ & E0 & E1 & E2 & E3).
    assert (R0 : forall A (f : particle num -> outcome A), read a f w = (f P, w)) by (intros A f; unfold read; rewrite E; reflexivity).
    unfold get_all. unfold sbind at 1. rewrite R0. unfold get_momentum. cbn [Z.eqb Pos.eqb]. rewrite E0.
    unfold sbind at 1. rewrite R0, E1. unfold sbind at 1. rewrite R0, E2. unfold sbind at 1. rewrite R0, E3.
    destruct (qd l a). reflexivity.
  Qed.
  Lemma each_get l hs U w ps : KW l hs U w -> Forall (fun a => (a < length l)%nat) ps ->
    each (get_all (num:=num)) ps w = (Ok (map (qd l) ps), w).
  Proof.
    intros HK. induction 1 as [|a ps Ha _ IH]; cbn [each map]; [reflexivity|].
    unfold sbind at 1. rewrite (get_all_eval l hs U w a HK Ha). unfold sbind. rewrite IH. reflexivity.
  Qed.
  Lemma pdot_eval l hs U w a b : KW l hs U w -> (a < length l)%nat -> (b < length l)%nat ->
    pdot (num:=num) a b w = (Ok (minkdot (qd l a) (qd l b)), w).
  Proof.
    intros (g0 & h0 & HP & HK & _) Ha Hb. destruct (knows_read l h0 g0 _ a HP HK Ha) as (P & E & _ & E0 & E1 & E2 & E3).
    destruct (knows_read l h0 g0 _ b HP HK Hb) as (Q & F & _ & F0 & F1 & F2 & F3).
    unfold pdot. rewrite E, F. unfold dot. rewrite E0, E1, E2, E3, F0, F1, F2, F3. reflexivity.
  Qed.

  (** ** making the particles *)
  Lemma make_each g l : Forall (fun mq => on_shell (fst mq) (snd mq)) l -> forall w, exists hp,
    each (fun mq : R * rmom => doing (WMom (num:=num) g (snd mq) (fst mq))) l w
      = (Ok (map (fun _ => tt) l), mkWorld (w_heap w ++ hp) (w_sps w)) /\
    length hp = length l /\ forall a, (a < length l)%nat -> exists P, nth_error hp a = Some P /\ ready (num:=num) (md l a) (qd l a) P.
  Proof.
    induction 1 as [|[m q] l HS Hl IH]; intros w.
    - exists []. cbn [each map]. rewrite app_nil_r. destruct w. repeat split. intros a Ha. cbn in Ha. lia.
    - cbn [fst snd] in HS. destruct (new_on_shell st eps g m q He HS) as (P & E & HR).
      destruct (IH (mkWorld (w_heap w ++ [P]) (w_sps w))) as (hp & E1 & EL & HP). exists (P :: hp). split; [|split].
      + cbn [each map]. unfold sbind at 1, doing at 1, smap, sbind at 1. cbn [wstep fst snd]. rewrite E. cbn [sret].
        unfold sbind. rewrite E1. cbn [w_heap w_sps sret]. rewrite <- app_assoc. reflexivity.
      + cbn. now rewrite EL.
      + intros [|a] Ha; [exists P; split; [reflexivity|exact HR]|]. cbn in Ha.
        destruct (HP a ltac:(lia)) as (P' & E' & R'). exists P'. split; [exact E'|exact R'].
  Qed.
  Lemma make_all_eval g l : Forall (fun mq => on_shell (fst mq) (snd mq)) l -> exists w,
    make_all (num:=num) g l (mkWorld [] []) = (Ok tt, w) /\ KW l [] (fun _ => true) w.
  Proof.
    intros Hl. destruct (make_each g l Hl (mkWorld [] [])) as (hp & E & EL & HP).
    exists (mkWorld hp []). split.
    { unfold make_all. apply (eq_trans (sbind_Ok _ _ _ _ _ E)). reflexivity. }
    exists g, hp. assert (HR : parts_ready (num:=num) (md l) (qd l) hp (seq 0 (length l))).
    { intros a Ha. apply in_seq in Ha. apply HP. lia. }
    split; [exact HR|]. split; [apply (ready_known g (md l) (qd l) hp), HR|]. split; [reflexivity|]. intros [|i] h Hi; discriminate.
  Qed.

  (** ** updates *)
  Lemma addrs_tmpl h sp : same_static (tmpl h) sp -> sp_addrs (num:=num) sp = h_addrs h.
  Proof. intros S. rewrite (sp_addrs_static _ _ S). reflexivity. Qed.
  Lemma massive_md l h0 g0 a : parts_ready (num:=num) (md l) (qd l) h0 (seq 0 (length l)) -> (a < length l)%nat ->
    massive_at (at_ (num:=num) g0 h0) a = negb (Reqb (md l a) 0).
  Proof. intros HP Ha. exact (ready_massive g0 (md l) (qd l) h0 _ a HP (in_seq_lt _ _ Ha)). Qed.
  Lemma known_sub (l : legs_t) D h hh : fits_in (length l) hh -> all_known (num:=num) D h (seq 0 (length l)) -> all_known D h (h_addrs hh).
  Proof. intros HF HK a Ha. apply HK, in_seq_lt, HF, Ha. Qed.
  Lemma update_Ok l h0 g0 h hh sp : parts_ready (num:=num) (md l) (qd l) h0 (seq 0 (length l)) ->
    all_known (at_ (num:=num) g0 h0) h (seq 0 (length l)) -> fits_in (length l) hh -> index_ok l hh -> same_static (tmpl hh) sp ->
    exists h' sp', sp_update (h, sp) = (Ok tt, (h', sp')) /\ hle h h' /\ same_static (tmpl hh) sp' /\ sp_inv (at_ (num:=num) g0 h0) sp' (h_L hh) (h_R hh).
  Proof.
    intros HP HK HF [HI1 HI2] S. pose proof S as (SL & SR & SM & SA & SLu & SRu).
    assert (aL : (h_L hh < length l)%nat) by (apply HF; left; reflexivity).
    assert (aR : (h_R hh < length l)%nat) by (apply HF; right; left; reflexivity).
    destruct (update_eval (at_ (num:=num) g0 h0) h sp (h_L hh) (h_R hh) (md l (h_L hh)) (md l (h_R hh)) SL SR) as (h' & sp' & LE & S' & EU).
    { rewrite (addrs_tmpl hh sp S). exact (known_sub l _ h hh HF HK). }
    { exact (SproductClaims.ready_mass (num:=num) g0 (md l) (qd l) h0 _ _ HP (in_seq_lt _ _ aL)). }
    { exact (SproductClaims.ready_mass (num:=num) g0 (md l) (qd l) h0 _ _ HP (in_seq_lt _ _ aR)). }
    rewrite (massive_md l h0 g0 _ HP aL), (massive_md l h0 g0 _ HP aR), SLu, SRu in EU. cbn [tmpl sp_Lupper sp_Rupper] in EU.
    replace (negb (negb (Reqb (md l (h_L hh)) 0)) && negb (h_Lu hh)) with false in EU.
    2:{ destruct (Reqb (md l (h_L hh)) 0) eqn:E; [|reflexivity]. apply Reqb_true in E. rewrite (HI1 E). reflexivity. }
    replace (negb (negb (Reqb (md l (h_R hh)) 0)) && negb (h_Ru hh)) with false in EU.
    2:{ destruct (Reqb (md l (h_R hh)) 0) eqn:E; [|reflexivity]. apply Reqb_true in E. rewrite (HI2 E). reflexivity. }
    assert (EM : dmats (at_ (num:=num) g0 h0) (sp_angle sp) (sp_mid sp) = Ok (rmats st eps (sp_angle sp) (map (qd l) (sp_mid sp)))).
    { rewrite (ready_dmats (num:=num) g0 (fun _ => g0) (md l) (qd l) h0 (seq 0 (length l)) (sp_mid sp) HP).
      2:{ intros a Ha. apply in_seq_lt, HF. right; right. rewrite SM in Ha. exact Ha. }
      apply mats_eval. rewrite SM. cbn [tmpl sp_mid].
      assert (HM : forall a, In a (h_mid hh) -> (a < length l)%nat) by (intros a Ha; apply HF; right; right; exact Ha).
      revert HM. induction (h_mid hh) as [|a mid IH]; intros HM; cbn [map]; constructor.
      - destruct (HP a (in_seq_lt _ _ (HM a (or_introl eq_refl)))) as (P & _ & HR). exists (md l a). exact (new_from_ready _ _ _ _ HR).
      - apply IH. intros b Hb. apply HM. right; exact Hb. }
    rewrite EM in EU. destruct EU as (EU & INV & _). exists h', sp'. split; [exact EU|]. split; [exact LE|].
    split; [exact (same_static_trans _ _ _ S S')|exact INV].
  Qed.
  Lemma make_sp l hs w h : KW l hs (fun _ => true) w -> fits_in (length l) h -> index_ok l h ->
    exists w', doing (WSMake (num:=num) (h_angle h) (h_L h) (h_Lu h) (h_mid h) (h_R h) (h_Ru h)) w = (Ok tt, w') /\ KW l (hs ++ [h]) (fun _ => true) w'.
  Proof.
    intros (g0 & h0 & HP & HK & EL & HS) HF HI.
    destruct (update_Ok l h0 g0 (w_heap w) h (tmpl h) HP HK HF HI (same_static_refl _)) as (h' & sp' & E & LE & S' & INV).
    exists (mkWorld h' (w_sps w ++ [sp'])). split.
    - unfold doing, smap, sbind. cbn [wstep]. unfold sp_construct. fold (tmpl h). rewrite E. reflexivity.
    - exists g0, h0. split; [exact HP|]. cbn [w_heap w_sps]. split; [exact (all_known_hle _ _ _ _ LE HK)|]. split.
      + rewrite !app_length, EL. reflexivity.
      + intros i hh Hi. destruct (Nat.lt_ge_cases i (length hs)) as [HL|HL].
        * rewrite nth_error_app1 in Hi by exact HL. rewrite nth_error_app1 by (rewrite EL; exact HL). exact (HS i hh Hi).
        * rewrite nth_error_app2 in Hi by exact HL. rewrite nth_error_app2 by (rewrite EL; exact HL). rewrite EL.
          destruct (i - length hs)%nat as [|k]; [|destruct k; discriminate]. injection Hi as <-.
          exists sp'. split; [reflexivity|]. split; [exact S'|]. intros _. exact INV.
  Qed.
  Lemma make_sps_from l hs' : Forall (fun h => fits_in (length l) h /\ index_ok l h) hs' -> forall hs w, KW l hs (fun _ => true) w ->
    exists w', each (fun h => doing (WSMake (num:=num) (h_angle h) (h_L h) (h_Lu h) (h_mid h) (h_R h) (h_Ru h))) hs' w
      = (Ok (map (fun _ => tt) hs'), w') /\ KW l (hs ++ hs') (fun _ => true) w'.
  Proof.
    induction 1 as [|h hs' [HF HI] _ IH]; intros hs w HK.
    - exists w. rewrite app_nil_r. split; [reflexivity|exact HK].
    - destruct (make_sp l hs w h HK HF HI) as (w1 & E1 & K1). destruct (IH _ w1 K1) as (w2 & E2 & K2).
      exists w2. rewrite <- app_assoc in K2. split; [|exact K2]. cbn [each map]. unfold sbind at 1. rewrite E1. unfold sbind. rewrite E2. reflexivity.
  Qed.
  Lemma make_sps_eval l hs w : Forall (fun h => fits_in (length l) h /\ index_ok l h) hs -> KW l [] (fun _ => true) w ->
    exists w', make_sps (num:=num) hs w = (Ok tt, w') /\ KW l hs (fun _ => true) w'.
  Proof.
    intros H HK. destruct (make_sps_from l hs H [] w HK) as (w' & E & K). exists w'. split; [|exact K].
    unfold make_sps, sbind. rewrite E. reflexivity.
  Qed.
  Lemma sps_set D hs U U' sps i h sp' : sps_ok D hs U sps -> nth_error hs i = Some h -> same_static (tmpl h) sp' ->
    (U' i = true -> sp_inv D sp' (h_L h) (h_R h)) -> (forall j, j <> i -> U' j = true -> U j = true) -> sps_ok D hs U' (lset sps i sp').
  Proof.
    intros (EL & HS) Hi S' I' HU. split.
    - rewrite <- EL. clear. revert i. induction sps as [|x sps IH]; intros [|i]; cbn; auto.
    - intros j hh Hj. destruct (Nat.eq_dec j i) as [->|N].
      + rewrite Hi in Hj. injection Hj as <-. destruct (HS i h Hi) as (sp & E & _).
        exists sp'. split; [exact (lset_same _ _ _ _ E)|]. auto.
      + destruct (HS j hh Hj) as (sp & E & S & I). exists sp. split; [rewrite lset_other by auto; exact E|]. split; [exact S|].
        intros UJ. apply I, HU; assumption.
  Qed.
  Lemma update_sp l hs U w i h : KW l hs U w -> nth_error hs i = Some h -> fits_in (length l) h -> index_ok l h ->
    exists w', doing (WUpdate (num:=num) i) w = (Ok tt, w') /\ KW l hs (fun j => (j =? i)%nat || U j) w'.
  Proof.
    intros (g0 & h0 & HP & HK & HS) Hi HF HI. destruct (proj2 HS i h Hi) as (sp & E & S & _).
    destruct (update_Ok l h0 g0 (w_heap w) h sp HP HK HF HI S) as (h' & sp' & EU & LE & S' & INV).
    exists (mkWorld h' (lset (w_sps w) i sp')). split.
    - unfold doing, smap, sbind. cbn [wstep]. unfold smap, sbind, on_sp. rewrite E, EU. reflexivity.
    - exists g0, h0. split; [exact HP|]. cbn [w_heap w_sps]. split; [exact (all_known_hle _ _ _ _ LE HK)|].
      apply (sps_set _ hs U _ _ i h sp' HS Hi S'); [auto|]. intros j N HU. apply Nat.eqb_neq in N. rewrite N in HU. exact HU.
  Qed.

  (** ** v *)
  Definition arg (s : option Z) (u : bool) : option (Z * bool) := match s with None => None | Some j => Some (j, u) end.
  Definition vcall_of (sL sR : option Z) : ST (store num) (CX num) :=
    match sL, sR with None, None => v0 | Some s, None => v1 s | None, Some t => v1 t | Some s, Some t => v2 s t end.
  Definition good_spin (m : R) (s : option Z) : Prop := match s with None => m = 0 | Some j => m <> 0 /\ (j = 1 \/ j = -1)%Z end.
  Definition chain_of (l : legs_t) (h : shape) (sL sR : option Z) : C :=
    rchain st eps (h_angle h) (arg sL (h_Lu h)) (qd l (h_L h)) (map (qd l) (h_mid h)) (arg sR (h_Ru h)) (qd l (h_R h)).
  Lemma v_eval l hs U w i h sL sR : KW l hs U w -> nth_error hs i = Some h -> U i = true -> fits_in (length l) h ->
    good_spin (md l (h_L h)) sL -> good_spin (md l (h_R h)) sR ->
    exists w', on_sp i (vcall_of sL sR) w = (Ok (chain_of l h sL sR), w') /\ KW l hs U w'.
  Proof.
    intros (g0 & h0 & HP & HK & HS) Hi HU HF GL GR. destruct (proj2 HS i h Hi) as (sp & E & S & INV). specialize (INV HU).
    assert (aL : (h_L h < length l)%nat) by (apply HF; left; reflexivity).
    assert (aR : (h_R h < length l)%nat) by (apply HF; right; left; reflexivity).
    set (D := at_ (num:=num) g0 h0) in *.
    assert (HKs : all_known D (w_heap w) (sp_addrs sp)) by (rewrite (addrs_tmpl h sp S); exact (known_sub l _ _ h HF HK)).
    assert (HPs : parts_ready (num:=num) (md l) (qd l) h0 (h_addrs h)) by (apply parts_sub; [exact HF|exact HP]).
    pose proof (massive_md l h0 g0 _ HP aL) as ML. pose proof (massive_md l h0 g0 _ HP aR) as MR. fold D in ML, MR.
    set (F a := snd (particle_new (num:=num) g0 (qd l a) (md l a))).
    assert (HF0 : forall a, In a (h_addrs h) -> ready (num:=num) (md l a) (qd l a) (F a)).
    { intros a Ha. destruct (HPs a Ha) as (P & _ & HR). exact (new_from_ready _ _ _ _ HR). }
    assert (CE : chain (h_angle h) (arg sL (h_Lu h)) (F (h_L h)) (map F (h_mid h)) (arg sR (h_Ru h)) (F (h_R h)) = Ok (chain_of l h sL sR)).
    { apply (chain_eval st eps _ _ (md l (h_L h)) _ _ _ _ _ (md l (h_R h))).
      - apply HF0. left; reflexivity.
      - assert (HM : forall a, In a (h_mid h) -> ready (num:=num) (md l a) (qd l a) (F a)) by (intros a Ha; apply HF0; right; right; exact Ha).
        revert HM. clear. induction (h_mid h) as [|a mid IH]; intros HM; cbn [map]; constructor.
        + exists (md l a). apply HM. left; reflexivity.
        + apply IH. intros b Hb. apply HM. right; exact Hb.
      - apply HF0. right; left; reflexivity.
      - destruct sL; exact GL.
      - destruct sR; exact GR. }
    assert (DV : forall x y, dvalue D sp (h_L h) (h_R h) x y = chain (h_angle h)
                (espin x (negb (Reqb (md l (h_L h)) 0)) (h_Lu h)) (F (h_L h)) (map F (h_mid h))
                (espin y (negb (Reqb (md l (h_R h)) 0)) (h_Ru h)) (F (h_R h))).
    { intros x y. rewrite (dvalue_static D (tmpl h) sp _ _ x y S).
      exact (ready_dvalue (num:=num) g0 (fun _ => g0) (md l) (qd l) h0 (tmpl h) (h_L h) (h_R h) x y HPs). }
    assert (Z0 : forall m s, good_spin m s -> negb (Reqb m 0) = match s with None => false | Some _ => true end).
    { intros m [j|] G; cbn in G.
      - rewrite (proj2 (Reqb_false m 0) (proj1 G)). reflexivity.
      - rewrite (proj2 (Reqb_true m 0) G). reflexivity. }
    rewrite (Z0 _ _ GL) in ML, DV. rewrite (Z0 _ _ GR) in MR, DV.
    assert (V : exists h' sp', hle (w_heap w) h' /\ same_static sp sp' /\ sp_inv D sp' (h_L h) (h_R h) /\
              vcall_of sL sR (w_heap w, sp) = (Ok (chain_of l h sL sR), (h', sp'))).
    { destruct sL as [s|], sR as [t|]; cbn [vcall_of good_spin arg] in *.
      - destruct (v2_eval D s t (w_heap w) sp _ _ INV HKs) as (h' & sp' & L1 & S1 & I1 & EV). exists h', sp'. split; [exact L1|]. split; [exact S1|]. split; [exact I1|].
        rewrite EV, ML, MR. cbn [andb]. unfold spin_res. rewrite (proj2 (spinb_true s) (proj2 GL)), (proj2 (spinb_true t) (proj2 GR)). cbn [andb].
        rewrite DV. cbn [espin]. rewrite !spin_of_pos by tauto. rewrite CE. reflexivity.
      - destruct (v1_eval D s (w_heap w) sp _ _ INV HKs) as (h' & sp' & L1 & S1 & I1 & EV). exists h', sp'. split; [exact L1|]. split; [exact S1|]. split; [exact I1|].
        rewrite EV, ML, MR. unfold spin_res. rewrite (proj2 (spinb_true s) (proj2 GL)).
        rewrite DV. cbn [espin]. rewrite !spin_of_pos by tauto. rewrite CE. reflexivity.
      - destruct (v1_eval D t (w_heap w) sp _ _ INV HKs) as (h' & sp' & L1 & S1 & I1 & EV). exists h', sp'. split; [exact L1|]. split; [exact S1|]. split; [exact I1|].
        rewrite EV, ML, MR. unfold spin_res. rewrite (proj2 (spinb_true t) (proj2 GR)).
        rewrite DV. cbn [espin]. rewrite !spin_of_pos by tauto. rewrite CE. reflexivity.
      - destruct (v0_eval D (w_heap w) sp _ _ INV HKs) as (h' & sp' & L1 & S1 & I1 & EV). exists h', sp'. split; [exact L1|]. split; [exact S1|]. split; [exact I1|].
        rewrite EV, ML, MR. cbn [orb]. rewrite DV. cbn [espin]. rewrite CE. reflexivity. }
    destruct V as (h' & sp' & LE & S' & I' & EV). exists (mkWorld h' (lset (w_sps w) i sp')). split.
    - unfold on_sp. rewrite E, EV. reflexivity.
    - exists g0, h0. split; [exact HP|]. cbn [w_heap w_sps]. split; [exact (all_known_hle _ _ _ _ LE HK)|].
      apply (sps_set _ hs U _ _ i h sp' HS Hi (same_static_trans _ _ _ S S')); [intros _; exact I'|auto].
  Qed.
End W.
