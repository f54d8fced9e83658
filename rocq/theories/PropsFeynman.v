(** * Four fermions: C56

    amp2 of every class with four outer fermions is the square of the amplitude of the Feynman
    rules of the Standard Model, at tree level. *)
From Coq Require Import Reals QArith Qreals String Ascii Lra Lia FunctionalExtensionality.
From Coquelicot Require Import Complex.
From Verif Require Import Base Scalar RealNum Linear Integers Particle Sproduct Propagator Process
  ParticleProofs SpecSpinor ParticleReal SpinorReal Ready ParticleClaims SpecSproduct SpecChain ChainReal Lorentz
  WorldProofs Lang LangFrame Pure PureProofs ReadOnly Sym SymEq SMNames SMRun SMTwins SMMasses SMAll SMChecks SMState PropsClasses PropsConstruct
  SMAmp2 SpinColour SMInv SMRebuild PropsRebuild PropsAmp2 PropsGluons Poly Covariant CovReal PropsLorentz PropsQED PropsWidth
  Feynman FeynmanAlg FeynmanSum FeynmanLegs FeynmanFlat FeynmanTable FeynmanMatch FeynmanMirror.
Close Scope Q_scope.
Close Scope R_scope.
Open Scope nat_scope.

(** ** What the classes of [ff_entries] have in common *)
Definition zs_of (t : nat -> option bool) : list Z := flat_map (fun k => match t k with None => [] | Some s => [zb s] end) (seq 0 4).
Definition ns_eqb (a b : list nat) : bool := if list_eq_dec Nat.eq_dec a b then true else false.
Fixpoint nss_eqb (a b : list (list nat)) : bool :=
  match a, b with [], [] => true | x :: a', y :: b' => if ns_eqb x y then nss_eqb a' b' else false | _, _ => false end.
Lemma nss_eqb_eq a : forall b, nss_eqb a b = true -> a = b.
Proof.
  induction a as [|x a IH]; intros [|y b] H; try discriminate; [reflexivity|]. cbn [nss_eqb] in H. unfold ns_eqb in H.
  destruct (list_eq_dec Nat.eq_dec x y) as [->|]; [|discriminate]. f_equal. exact (IH _ H).
Qed.
Definition mass_name (f : flavour) : id :=
  match f with Fe => n_masse | Fm => n_massmu | Fl => n_masstau | Fu => n_massu | Fc => n_massc | Ft => n_masst
             | Fd => n_massd | Fs => n_masss | Fb => n_massb | Fne | Fnm | Fnl => n_masse end.
Definition mass_check (c : cls) (p : process) (b : pobj snum) (k : nat) : bool :=
  match nth_error (b_P b) k, is_neutrino (flavour_of p k), leg c k with
  | Some (Some (TInt 0), _), true, Some true => true
  | Some (Some (TAt (APar j)), _), false, Some false => match index (mass_name (flavour_of p k)) (c_params c) with Some i => Nat.eqb i j | None => false end
  | _, _, _ => false end.
Definition entry_check (e : entry) (rows : list row) : bool :=
  let c := e_cls e in let p := e_proc e in
  negb (special c) && Nat.eqb (average c []) (states_number p) && zss_eqb (configs c []) (map zs_of (choices2 p)) &&
  nss_eqb (colourings c) (colours_of p) && process_ok (e_bosons e) p &&
  match find_meth c n_amp2 with Some f => match m_params f with [] => true | _ => false end | None => false end &&
  match shape c with POk b => forallb (mass_check c p b) (seq 0 4) | _ => false end &&
  forallb (fun t => forallb (fun k => lab_eqb (label_of c (zs_of t) k) (t k)) (seq 0 4)) (choices2 p) &&
  forallb (fun w => existsb (Pos.eqb (w_r w)) (props c) && (w_ch w <? 3)) rows.
Lemma entry_checks : forallb (fun et => entry_check (fst et) (fst (snd et))) tabled = true.
Proof. vm_cast_no_check (eq_refl true). Qed.
Lemma tabled_entries : map fst tabled = ff_entries.
Proof. reflexivity. Qed.
Fixpoint class_at (n : string) (l : list cls) : nat := match l with [] => 0 | c :: l' => if String.eqb n (c_name c) then 0 else S (class_at n l') end.
Definition places : list nat := Eval vm_compute in map (fun e => class_at (c_name (e_cls e)) sm_classes) ff_entries.
Lemma places_ok : map e_cls ff_entries = map (fun i => nth i sm_classes eemm) places.
Proof. vm_cast_no_check (eq_refl (map e_cls ff_entries)). Qed.
Lemma places_in : forallb (fun i => i <? length sm_classes) places = true.
Proof. vm_cast_no_check (eq_refl true). Qed.
Lemma entry_sm e : In e ff_entries -> In (e_cls e) sm_classes.
Proof.
  intros H. apply (in_map e_cls) in H. rewrite places_ok in H. apply in_map_iff in H as (i & Hi & H). rewrite <- Hi.
  apply nth_In, Nat.ltb_lt. exact (proj1 (forallb_forall _ _) places_in i H).
Qed.
Lemma map_eq_in {A B} (f g : A -> B) l : map f l = map g l -> forall x, In x l -> f x = g x.
Proof. induction l as [|y l IH]; cbn [map]; intros H x Hx; [contradiction|]. injection H as H1 H2. destruct Hx as [<-|Hx]; auto. Qed.
Lemma lab_eqb_eq a b : lab_eqb a b = true -> a = b.
Proof. destruct a as [[]|], b as [[]|]; cbn; congruence. Qed.
Lemma pat_shape pat : In pat all_pats -> pat = mkpat (pat 0) (pat 1) (pat 2) (pat 3).
Proof. intros H. cbn in H. repeat destruct H as [<-|H]; try contradiction; reflexivity. Qed.

Lemma all_some_in {A B} (f : A -> option B) l : forall l' x, all_some f l = Some l' -> In x l -> exists y, f x = Some y /\ In y l'.
Proof.
  induction l as [|a l IH]; cbn [all_some]; intros l' x E H; [contradiction|].
  destruct (f a) as [y|] eqn:Ea; [|discriminate]. destruct (all_some f l) as [k|]; [|discriminate]. injection E as <-.
  destruct H as [<-|H]; [exists y; split; [exact Ea|left; reflexivity]|]. destruct (IH k x eq_refl H) as (z & Z1 & Z2). exists z. split; [exact Z1|right; exact Z2].
Qed.
Lemma rsum_Rsum {A} (f : A -> R) l : SMAmp2.Rsum f l = Feynman.rsum f l.
Proof. induction l as [|x l IH]; cbn; [reflexivity|]. rewrite IH. reflexivity. Qed.

Lemma Cmod_sign (s : R) x : (s = 1 \/ s = -1)%R -> (Cmod (Cmult (RtoC s) x) ^ 2 = Cmod x ^ 2)%R.
Proof. intros [-> | ->]; rewrite Cmod_mult, Cmod_R; [rewrite Rabs_R1|rewrite (Rabs_left (-1)) by lra]; ring. Qed.

(** ** The members as the constructor leaves them *)
Section New.
  Variables (st : bool) (eps : R).
  Notation num := (RN st eps).
  Variable junk : id -> nat -> T num.
  Variable params : list R.
  Definition given (j : nat) : R := nth j params 0%R.
  Lemma pure_den y : pure y = true -> (denT (num:=num) (rT0 (num:=num) junk params) (rC0 (num:=num)) y : R) = tden given y.
  Proof.
    induction y as [z|d|a x IHx y IHy|x IHx|x IHx|x IHx|k| | |]; intros H; cbn [pure] in H; try discriminate H.
    - reflexivity.
    - exact (tdenD_ok st eps d).
    - apply andb_prop in H as [H1 H2]. cbn [tden]. rewrite <- (IHx H1), <- (IHy H2). destruct a; reflexivity.
    - cbn [tden]. rewrite <- (IHx H). reflexivity.
    - cbn [tden]. rewrite <- (IHx H). reflexivity.
    - cbn [tden]. rewrite <- (IHx H). reflexivity.
    - destruct k; try discriminate H. reflexivity.
  Qed.
End New.

(** ** Mirror images *)
Definition mq (m : bool) (q : vec4 R) : nat -> R := if m then reflected (pvec q) else pvec q.
Definition mE (m : bool) (e : ends2) : ends2 := if m then mirror2 e else e.
Lemma mE_pval m (E : nat -> ends2) x : pval (fun k => mE m (E k)) (if m then swap2 x else x) = pval E x.
Proof. destruct m; [apply mirror_pval|reflexivity]. Qed.
Lemma mq_outer m q es : outer2 (pvec q) es -> outer2 (mq m q) (map (mE m) es).
Proof. intros H. destruct m; [apply mirror_outer; exact H|]. rewrite (map_ext (mE false) (fun x => x)), map_id by reflexivity. exact H. Qed.
Lemma mE_cross m M es : cross2 M es -> cross2 M (map (mE m) es).
Proof. intros H. destruct m; [apply mirror_cross; exact H|]. rewrite (map_ext (mE false) (fun x => x)), map_id by reflexivity. exact H. Qed.
Lemma mq_dirac m M q e : dirac2 M (pvec q) e -> dirac2 M (mq m q) (mE m e).
Proof. intros H. destruct m; [apply mirror_dirac|]; exact H. Qed.
Lemma mq_flip q : mq true (flip q) = mq false q.
Proof. apply functional_extensionality. intros [|[|[|mu]]]; cbn; ring. Qed.
Lemma mq_den m P b q k : den_at P (fun j => mq m (q j)) b k = den_at P (fun j => pvec (q j)) b k.
Proof.
  destruct m; [|reflexivity]. unfold den_at, propagator_den, mq. f_equal. f_equal.
  destruct k as [|[|k]]; unfold square4, transfer, ingoing; cbn [goes_out Nat.leb reflected]; ring.
Qed.

(** ** Objects just constructed *)
Open Scope R_scope.
Section Fresh.
  Variables (st : bool) (eps : R).
  Notation num := (RN st eps).
  Hypothesis Heps : 0 <= eps.
  Variables (e : entry) (rows : list row) (ps : list (id * (sT * sT))).
  Hypothesis HT : In (e, (rows, ps)) tabled.
  Notation c := (e_cls e).
  Notation p := (e_proc e).
  Variable junk : id -> nat -> T num.
  Variable params : list R.
  Variable o : obj num.
  Hypothesis EC : construct (num:=num) junk c params = (Ok tt, o).
  Notation P := (sm_of c (given params)).
  Hypothesis HM : forall k, (k < 4)%nat -> is_neutrino (flavour_of p k) = false -> 0 < sm_mass P (flavour_of p k).
  Hypothesis HG : regular P (e_bosons e).
  Lemma in_sm : In c sm_classes.
  Proof. apply entry_sm. rewrite <- tabled_entries. exact (in_map fst _ _ HT). Qed.
  Lemma the_check : entry_check e rows = true.
  Proof. exact (proj1 (forallb_forall _ _) entry_checks _ HT). Qed.
  Lemma mass_is b k : shape c = POk b -> (k < 4)%nat -> mass_check c p b k = true.
  Proof.
    intros EB Hk. pose proof the_check as K. unfold entry_check in K. cbv zeta in K. rewrite EB in K.
    apply andb_prop in K as [K _]. apply andb_prop in K as [K _]. apply andb_prop in K as [_ K].
    apply (proj1 (forallb_forall _ _) K). apply in_seq. lia.
  Qed.
  Lemma nu_mass k : is_neutrino (flavour_of p k) = true -> sm_mass P (flavour_of p k) = 0.
  Proof. unfold sm_of. cbn [sm_mass]. destruct (flavour_of p k); cbn [is_neutrino]; congruence. Qed.
  Lemma held b k : shape c = POk b -> (k < 4)%nat ->
    leg c k = Some (is_neutrino (flavour_of p k)) /\
    exists y u, nth_error (b_P b) k = Some (Some y, u) /\ pure y = true /\ tden (given params) y = sm_mass P (flavour_of p k).
  Proof.
    intros EB Hk. pose proof (mass_is b k EB Hk) as K. unfold mass_check in K.
    destruct (nth_error (b_P b) k) as [[[y|] u]|]; try discriminate K.
    destruct y as [z| | | | | |a| | |]; try discriminate K.
    - destruct z; try discriminate K. destruct (is_neutrino (flavour_of p k)) eqn:EN; [|discriminate K].
      destruct (leg c k) as [[]|]; try discriminate K. split; [reflexivity|]. exists (TInt 0), u. split; [reflexivity|]. split; [reflexivity|].
      rewrite (nu_mass k EN). reflexivity.
    - destruct a as [ | | | | |j| ]; try discriminate K. all: destruct (is_neutrino (flavour_of p k)) eqn:EN; try discriminate K.
      destruct (leg c k) as [[]|]; try discriminate K. split; [reflexivity|]. exists (TAt (APar j)), u. split; [reflexivity|]. split; [reflexivity|].
      destruct (index (mass_name (flavour_of p k)) (c_params c)) as [i|] eqn:EI; [|discriminate K]. apply Nat.eqb_eq in K. subst i.
      cbn [tden]. unfold sm_of. cbn [sm_mass]. unfold par. destruct (flavour_of p k); cbn [is_neutrino mass_name] in *; try discriminate EN; rewrite EI; reflexivity.
  Qed.
  Lemma leg_held k : (k < 4)%nat -> leg_mass (num:=num) o k (sm_mass P (flavour_of p k)).
  Proof.
    intros Hk. destruct (shape_c c in_sm) as (b & EB & _). destruct (construct_shape junk c params o b EC EB) as (D & HO).
    destruct (held b k EB Hk) as (_ & y & u & E1 & E2 & E3).
    destruct (or_M _ _ _ _ _ _ _ HO k y u E1) as (Q & m & Q1 & Q2 & Q3). unfold RTs in Q3.
    pose proof (pure_den st eps junk params y E2) as X. rewrite E3 in X. change (m = sm_mass P (flavour_of p k)) with ((m : R) = sm_mass P (flavour_of p k)) in *.
    rewrite <- X, <- Q3. exact (mass_held st eps o k Q m Q1 Q2).
  Qed.
  Lemma leg_zero k m : In (k, m) [(0%nat, sm_mass P (flavour_of p 0)); (1%nat, sm_mass P (flavour_of p 1)); (2%nat, sm_mass P (flavour_of p 2)); (3%nat, sm_mass P (flavour_of p 3))] ->
    (leg c k = Some true -> m = 0) /\ (leg c k = Some false -> m <> 0).
  Proof.
    destruct (shape_c c in_sm) as (b & EB & _).
    assert (K : forall k, (k < 4)%nat -> (leg c k = Some true -> sm_mass P (flavour_of p k) = 0) /\ (leg c k = Some false -> sm_mass P (flavour_of p k) <> 0)).
    { clear k m. intros k Hk. destruct (held b k EB Hk) as (E & _). rewrite E. split; intros [= H]; [exact (nu_mass k H)|]. apply Rgt_not_eq, HM; assumption. }
    intros H. cbn in H. repeat destruct H as [[= <- <-]|H]; try contradiction; apply K; lia.
  Qed.

  Variables q1 q2 q3 q4 : vec4 R.
  Definition qs (k : nat) : vec4 R := match k with 0 => q1 | 1 => q2 | 2 => q3 | _ => q4 end%nat.
  Hypothesis HS : forall k, (k < 4)%nat -> on_shell (sm_mass P (flavour_of p k)) (qs k).
  Hypothesis HE : forall k, (k < 4)%nat -> 0 <= v_0 (qs k).
  Hypothesis HC : vadd q1 q2 = vadd q3 q4.
  Lemma ends_fit m k : (k < 4)%nat -> leg_fits P p (fun j => mq m (qs j)) (fun j b => mE m (end2 st eps (qs j) b)) k.
  Proof.
    intros Hk. unfold leg_fits. pose proof (HS k Hk) as S. destruct (is_neutrino (flavour_of p k)) eqn:EN.
    - rewrite (nu_mass k EN) in *. split; [reflexivity|]. exact (mq_outer m _ [_] (proj1 (massless_fits st eps _ S (HE k Hk)))).
    - destruct (massive_fits st eps _ _ (HM k Hk EN) S (HE k Hk)) as (A & B & _). split; [exact (mq_outer m _ [_; _] A)|exact (mE_cross m _ [_; _] B)].
  Qed.
  Lemma ends_dirac m k b : (k < 4)%nat -> In b (labels2 p k) -> dirac2 (leg_mass2 P p k) (mq m (qs k)) (mE m (end2 st eps (qs k) b)).
  Proof.
    intros Hk Hb. unfold leg_mass2, labels2 in *. pose proof (HS k Hk) as S. apply mq_dirac. destruct (is_neutrino (flavour_of p k)) eqn:EN.
    - destruct Hb as [<-|[]]. rewrite (nu_mass k EN) in *. exact (proj2 (massless_fits st eps _ S (HE k Hk))).
    - destruct (massive_fits st eps _ _ (HM k Hk EN) S (HE k Hk)) as (_ & _ & A & B). destruct Hb as [<-|[<-|[]]]; assumption.
  Qed.
  Lemma conserved m mu : ingoing (fun j => mq m (qs j)) 0 mu + ingoing (fun j => mq m (qs j)) 1 mu + ingoing (fun j => mq m (qs j)) 2 mu + ingoing (fun j => mq m (qs j)) 3 mu = 0.
  Proof.
    unfold ingoing. cbn [goes_out Nat.leb qs]. pose proof (f_equal v_0 HC) as C0. pose proof (f_equal v_1 HC) as C1. pose proof (f_equal v_2 HC) as C2. pose proof (f_equal v_3 HC) as C3.
    unfold vadd in *. cbn [v_0 v_1 v_2 v_3] in *. destruct m, mu as [|[|[|mu]]]; cbn [mq reflected pvec]; lra.
  Qed.
  Lemma choices_label t k : In t (choices2 p) -> (k < 4)%nat -> In (t k) (labels2 p k).
  Proof.
    unfold choices2. intros H Hk. apply in_flat_map in H as (a & Ha & H). apply in_flat_map in H as (b & Hb & H). apply in_flat_map in H as (d & Hd & H).
    apply in_map_iff in H as (f & <- & Hf). destruct k as [|[|[|k]]]; assumption.
  Qed.

  (** the mirror of the tables, and the square *)
  Definition matched (m : bool) : Prop := exists s : R, (s = 1 \/ s = -1) /\
    each (fun k => coef (code_keys m e (given params) rows) k = s * coef (spec_keys P p (e_bosons e)) k)
      (dedup (map fst (code_keys m e (given params) rows) ++ map fst (spec_keys P p (e_bosons e)))).
  Theorem fresh_amp2 m : matched m ->
    forall rs, forallb reading rs = true ->
    let g := callm (num:=num) junk c n_set_momenta [GMom (num:=num) q1; GMom (num:=num) q2; GMom (num:=num) q3; GMom (num:=num) q4] o in
    forall chi, (forall k, (k < 4)%nat -> complete_spinors P p (fun j => mq m (qs j)) k (chi k)) ->
    fst (callm (num:=num) junk c n_amp2 [] (snd (orun (num:=num) junk c rs (snd g)))) =
      Ok (Some (RtT (num:=num) (feynman_amp2 P p (e_bosons e) (fun j => mq m (qs j)) chi))).
  Proof.
    intros (s & Hs & HK) rs Hrs g chi Hchi. destruct (table_agrees _ HT (given params) HG) as (_ & HPR). cbn [fst snd] in HPR.
    pose proof the_check as K. unfold entry_check in K. cbv zeta in K.
    apply andb_prop in K as [K K9]. apply andb_prop in K as [K K8]. apply andb_prop in K as [K K7]. apply andb_prop in K as [K K6]. apply andb_prop in K as [K K5].
    apply andb_prop in K as [K K4]. apply andb_prop in K as [K K3]. apply andb_prop in K as [K1 K2].
    apply negb_true_iff in K1. apply Nat.eqb_eq in K2. apply zss_eqb_eq in K3. apply nss_eqb_eq in K4.
    assert (HA : argless c n_amp2).
    { destruct (find_meth c n_amp2) as [f|] eqn:EF; [|discriminate K6]. destruct (m_params f) eqn:EQ; [|discriminate K6]. exists f. split; assumption. }
    pose proof in_sm as Hc.
    assert (HR : reached (num:=num) junk c o) by exact (reached_new (num:=num) junk c _ o EC).
    pose proof (leg_held 0 ltac:(lia)) as L0. pose proof (leg_held 1 ltac:(lia)) as L1. pose proof (leg_held 2 ltac:(lia)) as L2. pose proof (leg_held 3 ltac:(lia)) as L3.
    pose proof (HS 0%nat ltac:(lia)) as S0. pose proof (HS 1%nat ltac:(lia)) as S1. pose proof (HS 2%nat ltac:(lia)) as S2. pose proof (HS 3%nat ltac:(lia)) as S3. cbn [qs] in S0, S1, S2, S3.
    destruct (C45_no_exception_on_shell c Hc st eps Heps junk o HR _ _ _ _ L0 L1 L2 L3 (fun k m' H => proj1 (leg_zero k m' H)) (fun k m' H => proj2 (leg_zero k m' H)) q1 q2 q3 q4 S0 S1 S2 S3) as (HOk & _).
    fold g in HOk.
    destruct (C48_spin_sums_on_shell c Hc K1 (n_amp2, []) (or_introl eq_refl) HA st eps Heps junk o HR _ _ _ _ L0 L1 L2 L3
      (fun k m' H => proj1 (leg_zero k m' H)) (fun k m' H => proj2 (leg_zero k m' H)) q1 q2 q3 q4 S0 S1 S2 S3 rs Hrs) as (M & HMM & HV). cbn [fst snd] in HMM, HV. fold g in HMM, HV.
    set (o2 := snd (orun (num:=num) junk c rs (snd g))) in *.
    rewrite HV. do 3 f_equal. rewrite K2, K3, K4. unfold feynman_amp2. f_equal.
    assert (HOk' : isOk (fst (callm (num:=num) junk c n_set_momenta (map (GMom (num:=num)) [q1; q2; q3; q4]) o)) = true)
      by (change (isOk (fst g) = true); rewrite HOk; reflexivity).
    destruct (pair_state (num:=num) junk c o [] [q1; q2; q3; q4] [q1; q2; q3; q4] rs rs Hc (polar_real st eps) HR eq_refl eq_refl eq_refl HOk' HOk' Hrs Hrs)
      as (b & pat & b1 & rT & rT' & EB & HI & EA & R1 & _ & _ & R4 & R5 & R8 & R9 & R6 & _ & HQ & _).
    change (snd (orun (num:=num) junk c rs (snd (callm (num:=num) junk c n_set_momenta (map (GMom (num:=num)) [q1; q2; q3; q4]) o)))) with o2 in HQ.
    destruct (HQ (amp_of junk c o2)) as [HQ1 HQ2]. clear HQ.
    destruct (construct_shape junk c params o b EC EB) as (D & HO).
    assert (RM : forall k, (k < 4)%nat -> rT (AMass k) = sm_mass P (flavour_of p k)).
    { intros k Hk. destruct (leg_held k Hk) as (Q & Q1 & Q2). destruct (R4 k Hk) as (Q' & E3' & E4'). rewrite Q1 in E3'. injection E3' as <-.
      unfold mass in Q2. rewrite E4' in Q2. change (Ok (rT (AMass k) : T num) = Ok (sm_mass P (flavour_of p k) : T num)) in Q2. congruence. }
    assert (HPt : pat = thepat c).
    { rewrite (pat_shape pat HI). unfold thepat.
      assert (X : forall k, (k < 4)%nat -> pat k = match leg c k with Some true => true | _ => false end).
      { intros k Hk. destruct (held b k EB Hk) as (E & _). rewrite E, (R5 k Hk), (RM k Hk). change (Reqb (sm_mass P (flavour_of p k)) 0 = if is_neutrino (flavour_of p k) then true else false).
        destruct (is_neutrino (flavour_of p k)) eqn:EN.
        - rewrite (nu_mass k EN). apply Reqb_refl.
        - apply (Reqb_false _ _). apply Rgt_not_eq, HM; assumption. }
      rewrite !X by lia. reflexivity. }
    subst pat.
    (* the rows *)
    assert (A1 : forall k mu, (k < 4)%nat -> rT (AMom k mu) = comp (num:=num) (qs k) mu).
    { intros [|[|[|[|k]]]] mu Hk; [exact (R1 0%nat mu Hk)|exact (R1 1%nat mu Hk)|exact (R1 2%nat mu Hk)|exact (R1 3%nat mu Hk)|lia]. }
    assert (A2 : forall k, (k < 4)%nat -> thepat c k = Reqb (rT (AMass k)) 0) by (intros k Hk; exact (R5 k Hk)).
    assert (A3 : forall k, (k < 4)%nat -> fst (particle_new (num:=num) (fun _ => 0) (qs k) (rT (AMass k))) = Ok tt).
    { intros [|[|[|[|k]]]] Hk; [exact (R6 0%nat Hk)|exact (R6 1%nat Hk)|exact (R6 2%nat Hk)|exact (R6 3%nat Hk)|lia]. }
    assert (A4 : forall x y, known (dyn_mask c) b x = true -> b_T b x = Some y -> pure y = true -> rT (AMem x) = tden (given params) y).
    { intros x y X1 X2 X3. destruct (or_T _ _ _ _ _ _ _ HO x y X2) as (w & W1 & W2). pose proof (R9 x X1) as X. rewrite W1 in X. injection X as X. unfold RTs in W2.
      rewrite <- X. rewrite W2. exact (pure_den st eps junk params y X3). }
    assert (A5 : forall k y u, (k < 4)%nat -> nth_error (b_P b) k = Some (Some y, u) -> pure y = true -> rT (AMass k) = tden (given params) y).
    { intros k y u Hk X2 X3. destruct (or_M _ _ _ _ _ _ _ HO k y u X2) as (Q & w & W1 & W2 & W3). destruct (R4 k Hk) as (Q' & V1 & V2). rewrite W1 in V1. injection V1 as <-.
      rewrite W2 in V2. injection V2 as V2. unfold RTs in W3. rewrite <- V2, W3. exact (pure_den st eps junk params y X3). }
    assert (A6 : forall w, In w rows -> denC (num:=num) rT (amp_of junk c o2) (den_in (w_r w) (w_ch w)) = den_at P (fun j => pvec (qs j)) (boson_of e (w_r w)) (w_ch w)).
    { intros w Hw. pose proof (proj1 (forallb_forall _ _) K9 w Hw) as X. cbv beta in X. apply andb_prop in X as [X1 X2]. apply Nat.ltb_lt in X2.
      apply existsb_exists in X1 as (r & Hr & X1). apply Pos.eqb_eq in X1. subst r.
      pose proof (map_eq_in _ _ _ (eq_trans (eq_trans (eq_sym (map_map fst (fun e => rprops_of (e_cls e)) tabled)) (f_equal (map (fun e => rprops_of (e_cls e))) tabled_entries)) rprops_ok) _ HT) as RP.
      cbn [fst snd] in RP. unfold rprops_of in RP. rewrite EB in RP. destruct (all_some_in _ _ _ _ RP Hr) as (z & Z1 & Z2).
      destruct (b_R b (w_r w)) as [y|] eqn:EY; [|discriminate Z1].
      destruct (negb (k_R (dyn_mask c) (w_r w)) && pure (pr_m y) && pure (pr_w y)) eqn:EP; [|discriminate Z1]. injection Z1 as <-.
      apply andb_prop in EP as [EP E3]. apply andb_prop in EP as [E1 E2]. apply negb_true_iff in E1.
      pose proof (each_in _ _ HPR _ Z2) as [M1 M2]. cbn [fst snd] in M1, M2.
      destruct (or_R _ _ _ _ _ _ _ HO _ _ EY) as [W1 W2]. unfold RTs in W1, W2. destruct (R8 (w_r w) E1) as [V1 V2].
      apply (den_value st eps rT (amp_of junk c o2) qs A1 P (fun j => pvec (qs j)) (fun _ _ _ _ => eq_refl) (w_r w) (w_ch w) _ X2).
      - rewrite V1, W1. etransitivity; [exact (pure_den st eps junk params _ E2)|exact M1].
      - rewrite V2, W2. etransitivity; [exact (pure_den st eps junk params _ E3)|exact M2]. }
    assert (AMP : forall t col, In t (choices2 p) ->
      Cmod (amplitude c M (zs_of t) col) ^ 2 = Cmod (feynman_amplitude P p (fun j => mq m (qs j)) (e_bosons e) (fun k => cwave p (fun j b => mE m (end2 st eps (qs j) b)) k (t k)) col) ^ 2).
    { intros t col Ht.
      assert (LB : forall k, (k < 4)%nat -> label_of c (zs_of t) k = t k).
      { intros k Hk. pose proof (proj1 (forallb_forall _ _) K8 t Ht) as X. cbv beta in X. apply lab_eqb_eq. apply (proj1 (forallb_forall _ _) X k). apply in_seq. lia. }
      assert (Hcf : In (zs_of t) (configs c [])) by (rewrite K3; apply in_map; exact Ht).
      assert (HVV : forall mt y, In mt (structures c) -> pinner (Qj (thepat c)) c b1 (fst mt) (zs_of t) = POk y -> M (fst mt) (zs_of t) = denC (num:=num) rT (amp_of junk c o2) y).
      { intros mt y Hmt EY. destruct (amp_value junk c (thepat c) b1 o2 rT HQ1 HQ2 _ _ _ EY) as [Y1 Y2].
        pose proof (HMM _ _ Hmt Hcf) as Y3. rewrite Y1 in Y3. injection Y3 as Y3. rewrite <- Y3. exact Y2. }
      assert (RW : rows_of c (zs_of t) = Some rows).
      { pose proof (map_eq_in _ _ _ (eq_trans (eq_trans (eq_sym (map_map fst (fun e => map (rows_of (e_cls e)) (configs (e_cls e) [])) tabled)) (f_equal (map (fun e => map (rows_of (e_cls e)) (configs (e_cls e) []))) tabled_entries)) rows_ok) _ HT) as RP.
        cbn [fst snd] in RP. exact (map_eq_in _ _ _ RP _ Hcf). }
      rewrite (rows_value st eps c b b1 EB EA rT (amp_of junk c o2) qs A1 A2 A3 (given params) A4 A5 col (zs_of t) M HVV rows RW).
      set (E := fun k => end2 st eps (qs k) (label_of c (zs_of t) k)). set (D' := den_at P (fun j => mq m (qs j))).
      rewrite (spec_keys_val col D' (fun k => mE m (E k)) (fun _ => eq_refl) P p (e_bosons e) (fun j => mq m (qs j)) K5 (conserved m)).
      2: { intros k Hk. unfold E. rewrite (LB k Hk). apply ends_dirac; [exact Hk|]. apply choices_label; assumption. }
      2: { intros d Hd. exact (den_chan P p (e_bosons e) _ d K5 (conserved m) Hd). }
      2: { intros k Hk. unfold cwave, canon, E. rewrite (LB k Hk). reflexivity. }
      rewrite <- (Cmod_sign s (ksum _ _) Hs), <- (ksum_agree _ _ _ s HK). f_equal. f_equal.
      rewrite (code_keys_val col D' (fun k => mE m (E k)) (fun _ => eq_refl)). apply Csum_ext. intros w Hw. unfold rowval.
      rewrite mE_pval, (A6 w Hw). unfold D'. rewrite mq_den. reflexivity. }
    rewrite !rsum_Rsum, rsum_map.
    etransitivity; [apply rsum_ext; intros t Ht; rewrite rsum_Rsum; apply rsum_ext; intros col _; exact (AMP t col Ht)|].
    rewrite rsum_swap. rewrite (rsum_swap _ spin_choices). apply rsum_ext. intros col _.
    symmetry. exact (spin_sum P p (e_bosons e) K5 (fun j => mq m (qs j)) col _ (ends_fit m) chi Hchi).
  Qed.
End Fresh.

(** C56.  For every class with four outer fermions, all parameters of the constructor (masses
    of the charged legs positive, 0 < sin^2 of the weak angle < 1 and mW <> 0 where there are
    weak bosons), all on-shell momenta of non-negative energy that are conserved, whatever
    happened since the construction (no setters of parameters) and whatever is read in between:
    amp2 is the square of the amplitude of the Feynman rules, summed over spins and colours and
    averaged over the initial ones.  The spinors [chi] of the Feynman rules are any that are
    complete; [complete_spinors_exist] shows that there are such.  Where a denominator vanishes
    both sides use the inverse of 0 of the reals, which means nothing for the code. *)
Theorem C56_feynman_rules :
  forall e, In e ff_entries -> let c := e_cls e in let p := e_proc e in let bs := e_bosons e in
  forall st eps, 0 <= eps ->
  forall (junk : id -> nat -> T (RN st eps)) (params : list R) (o : obj (RN st eps)),
    construct (num:=RN st eps) junk c params = (Ok tt, o) ->
  let P := sm_of c (fun j => nth j params 0) in
  regular P bs -> (forall k, (k < 4)%nat -> is_neutrino (flavour_of p k) = false -> 0 < sm_mass P (flavour_of p k)) ->
  forall q1 q2 q3 q4 : vec4 R, let q k := match k with 0 => q1 | 1 => q2 | 2 => q3 | _ => q4 end%nat in
    (forall k, (k < 4)%nat -> on_shell (sm_mass P (flavour_of p k)) (q k) /\ 0 <= v_0 (q k)) -> vadd q1 q2 = vadd q3 q4 ->
  forall h, forallb no_setter h = true ->
    let g := callm (num:=RN st eps) junk c n_set_momenta [GMom (num:=RN st eps) q1; GMom (num:=RN st eps) q2; GMom (num:=RN st eps) q3; GMom (num:=RN st eps) q4]
               (snd (orun (num:=RN st eps) junk c h o)) in
  forall rs, forallb reading rs = true ->
  forall chi, (forall k, (k < 4)%nat -> complete_spinors P p (fun j => pvec (q j)) k (chi k)) ->
    fst g = Ok None /\
    fst (callm (num:=RN st eps) junk c n_amp2 [] (snd (orun (num:=RN st eps) junk c rs (snd g)))) =
      Ok (Some (RtT (num:=RN st eps) (feynman_amp2 P p bs (fun j => pvec (q j)) chi))).
Proof.
  intros e He c p bs st eps Heps junk params o EC P HG HM q1 q2 q3 q4 q HSE HC h Hh g rs Hrs chi Hchi.
  assert (HT : exists t, In (e, t) tabled).
  { rewrite <- tabled_entries in He. apply in_map_iff in He as ((e' & t) & E & Ht). cbn in E. subst e'. exists t. exact Ht. }
  destruct HT as ([rows ps] & HT).
  pose proof (entry_sm e He) as Hc. pose proof (the_check e rows ps HT) as K. unfold entry_check in K. cbv zeta in K.
  assert (HA : argless c n_amp2).
  { apply andb_prop in K as [K _]. apply andb_prop in K as [K _]. apply andb_prop in K as [K _]. apply andb_prop in K as [_ K]. fold c in K.
    destruct (find_meth c n_amp2) as [f|] eqn:EF; [|discriminate K]. destruct (m_params f) eqn:EQ; [|discriminate K]. exists f. split; assumption. }
  clear K.
  assert (HR : reached (num:=RN st eps) junk c o) by exact (reached_new (num:=RN st eps) junk c _ o EC).
  assert (HS : forall k, (k < 4)%nat -> on_shell (sm_mass P (flavour_of p k)) (q k)) by (intros k Hk; apply HSE; exact Hk).
  assert (HE : forall k, (k < 4)%nat -> 0 <= v_0 (q k)) by (intros k Hk; apply HSE; exact Hk).
  set (mk := fun k => sm_mass P (flavour_of p k)).
  assert (LH : forall k, (k < 4)%nat -> leg_mass (num:=RN st eps) o k (mk k)) by (intros k Hk; exact (leg_held st eps e rows ps HT junk params o EC k Hk)).
  pose proof (leg_zero e rows ps HT params HM) as LZ.
  assert (HR' : reached (num:=RN st eps) junk c (snd (orun (num:=RN st eps) junk c h o))) by (apply reached_history; assumption).
  split.
  { assert (LH' : forall k, (k < 4)%nat -> leg_mass (num:=RN st eps) (snd (orun (num:=RN st eps) junk c h o)) k (mk k)) by (intros k Hk; apply legs_history; auto).
    destruct (C45_no_exception_on_shell c Hc st eps Heps junk _ HR' _ _ _ _ (LH' 0%nat ltac:(lia)) (LH' 1%nat ltac:(lia)) (LH' 2%nat ltac:(lia)) (LH' 3%nat ltac:(lia))
      (fun k m' H => proj1 (LZ k m' H)) (fun k m' H => proj2 (LZ k m' H)) q1 q2 q3 q4 (HS 0%nat ltac:(lia)) (HS 1%nat ltac:(lia)) (HS 2%nat ltac:(lia)) (HS 3%nat ltac:(lia))) as (HOk & _).
    exact HOk. }
  destruct (table_agrees _ HT (given params) HG) as ((m & HMt) & _). cbn [fst snd] in HMt.
  (* the object as constructed, with momenta q' to which a Lorentz transformation takes q *)
  assert (MV : forall L q1' q2' q3' q4', let q' k := match k with 0 => q1' | 1 => q2' | 2 => q3' | _ => q4' end%nat in
    detm st eps L = RtoC 1 -> (forall k, (k < 4)%nat -> moved st eps L (q' k) (q k)) ->
    (forall k, (k < 4)%nat -> on_shell (mk k) (q' k)) -> (forall k, (k < 4)%nat -> 0 <= v_0 (q' k)) -> vadd q1' q2' = vadd q3' q4' ->
    (fun j => mq m (q' j)) = (fun j => pvec (q j)) ->
    fst (callm (num:=RN st eps) junk c n_amp2 [] (snd (orun (num:=RN st eps) junk c rs (snd g)))) =
      Ok (Some (RtT (num:=RN st eps) (feynman_amp2 P p bs (fun j => pvec (q j)) chi)))).
  { intros L q1' q2' q3' q4' q' HD HV HS' HE' HC' HQ.
    destruct (lorentz_amp2 st eps L Heps HD c Hc (n_amp2, []) (or_introl eq_refl) HA junk o HR _ _ _ _ (LH 0%nat ltac:(lia)) (LH 1%nat ltac:(lia)) (LH 2%nat ltac:(lia)) (LH 3%nat ltac:(lia))
      (fun k m' H => proj1 (LZ k m' H)) (fun k m' H => proj2 (LZ k m' H)) q1' q2' q3' q4' (HS' 0%nat ltac:(lia)) (HS' 1%nat ltac:(lia)) (HS' 2%nat ltac:(lia)) (HS' 3%nat ltac:(lia))
      (HE' 0%nat ltac:(lia)) (HE' 1%nat ltac:(lia)) (HE' 2%nat ltac:(lia)) (HE' 3%nat ltac:(lia)) q1 q2 q3 q4 (HV 0%nat ltac:(lia)) (HV 1%nat ltac:(lia)) (HV 2%nat ltac:(lia)) (HV 3%nat ltac:(lia))
      h Hh [] rs eq_refl Hrs) as (x & X1 & X2). cbn [fst] in X1, X2.
    pose proof (fresh_amp2 st eps Heps e rows ps HT junk params o EC HM HG q1' q2' q3' q4' HS' HE' HC' m HMt [] eq_refl chi) as F.
    change (fun j => mq m (qs q1' q2' q3' q4' j)) with (fun j => mq m (q' j)) in F. rewrite HQ in F. specialize (F Hchi). cbv zeta in F.
    etransitivity; [exact X2|]. etransitivity; [symmetry; exact X1|exact F]. }
  destruct m.
  - assert (FS : forall k, (k < 4)%nat -> on_shell (mk k) (flip (q k))).
    { intros k Hk. pose proof (HS k Hk) as S. unfold on_shell, minksq, flip in *. cbn [v_0 v_1 v_2 v_3]. unfold mk. rewrite <- S. ring. }
    assert (FE : forall k, (k < 4)%nat -> 0 <= v_0 (flip (q k))) by (intros k Hk; exact (HE k Hk)).
    assert (FC : vadd (flip q1) (flip q2) = vadd (flip q3) (flip q4)).
    { pose proof (f_equal v_0 HC) as C0. pose proof (f_equal v_1 HC) as C1. pose proof (f_equal v_2 HC) as C2. pose proof (f_equal v_3 HC) as C3.
      unfold vadd, flip in *. cbn [v_0 v_1 v_2 v_3] in *. f_equal; lra. }
    assert (FF : forall x, flip (flip x) = x) by (intros [x0 x1 x2 x3]; unfold flip; cbn [v_0 v_1 v_2 v_3]; f_equal; ring).
    destruct (mirrored_by_turn st eps _ _ _ _ (flip q1) (flip q2) (flip q3) (flip q4) (FS 0%nat ltac:(lia)) (FS 1%nat ltac:(lia)) (FS 2%nat ltac:(lia)) (FS 3%nat ltac:(lia))
      (FE 0%nat ltac:(lia)) (FE 1%nat ltac:(lia)) (FE 2%nat ltac:(lia)) (FE 3%nat ltac:(lia)) FC) as (L & HD & V1 & V2 & V3 & V4'). rewrite FF in V1, V2, V3, V4'.
    apply (MV L (flip q1) (flip q2) (flip q3) (flip q4)); try assumption.
    + intros [|[|[|k]]] Hk; assumption.
    + intros [|[|[|[|k]]]] Hk; [exact (FS 0%nat Hk)|exact (FS 1%nat Hk)|exact (FS 2%nat Hk)|exact (FS 3%nat Hk)|lia].
    + intros [|[|[|[|k]]]] Hk; [exact (FE 0%nat Hk)|exact (FE 1%nat Hk)|exact (FE 2%nat Hk)|exact (FE 3%nat Hk)|lia].
    + apply functional_extensionality. intros [|[|[|k]]]; apply mq_flip.
  - apply (MV (CM (num:=RN st eps) (RtoC 1) (RtoC 0) (RtoC 0) (RtoC 1)) q1 q2 q3 q4); auto.
    + unfold detm. cbn [m00 m01 m10 m11]. unfold Cminus, Cplus, Copp, Cmult, RtoC. cbn. f_equal; ring.
    + intros k Hk. apply moved_one.
Qed.
Print Assumptions C56_feynman_rules.

(** ** The spinors of the Feynman rules exist *)
Theorem complete_spinors_exist P p (q : nat -> vec4 R) k : 0 <= sm_mass P (flavour_of p k) ->
  on_shell (sm_mass P (flavour_of p k)) (q k) -> 0 <= v_0 (q k) -> exists chi, complete_spinors P p (fun j => pvec (q j)) k chi.
Proof.
  intros HM HS HE. set (m := sm_mass P (flavour_of p k)) in *. unfold complete_spinors. fold m.
  assert (GB : forall (x y : spin4) G, (forall a b, (a < 4)%nat -> (b < 4)%nat -> gram [x; y] a b = mcomp G true a b) ->
    forall a b, (a < 4)%nat -> (b < 4)%nat -> Cplus (Cmult (x a) (bar x b)) (Cmult (y a) (bar y b)) = G a b).
  { intros x y G H a b Ha Hb. pose proof (H a (sw b) Ha (sw_lt b Hb)) as X. unfold gram, mcomp in X. cbn [Csum map] in X. rewrite sw_sw in X.
    rewrite !bar_at by exact Hb. rewrite <- X. ring. }
  destruct (Rle_lt_or_eq_dec 0 m HM) as [HP|H0].
  - set (s := if l_anti (leg_at p k) then 1 else -1).
    exists (fun b => colw s (end2 false 0 (q k) (Some b))). intros a b Ha Hb.
    destruct (massive_fits false 0 m (q k) HP HS HE) as (A & B & _).
    pose proof (canon_gram true (pvec (q k)) m s _ ltac:(unfold s; destruct (l_anti (leg_at p k)); ring) A B) as G. cbn [map] in G.
    rewrite (GB _ _ _ G a b Ha Hb). unfold dirac_matrix. do 2 f_equal. unfold s. destruct (l_anti (leg_at p k)); f_equal; ring.
  - exists (fun b => keep (negb b) (colw 1 (end2 false 0 (q k) None))). intros a b Ha Hb. rewrite <- H0 in *.
    destruct (massless_fits false 0 (q k) HS HE) as (A & _).
    pose proof (chiral_gram true (pvec (q k)) 1 _ ltac:(ring) A) as G. cbn [map] in G.
    cbn [negb]. rewrite (GB _ _ _ G a b Ha Hb). unfold dirac_matrix. do 2 f_equal. destruct (l_anti (leg_at p k)); f_equal; ring.
Qed.

(** The same after set_masses: the masses are then those given to it. *)
Theorem C56_feynman_rules_set_masses :
  forall e, In e ff_entries -> let c := e_cls e in let p := e_proc e in let bs := e_bosons e in
  forall st eps, 0 <= eps ->
  forall (junk : id -> nat -> T (RN st eps)) (params masses : list R) (o o1 o2 : obj (RN st eps)) r h0,
    construct (num:=RN st eps) junk c params = (Ok tt, o) -> forallb not_set_v h0 = true ->
    callm (num:=RN st eps) junk c n_set_masses (map (GT (num:=RN st eps)) masses) (snd (orun (num:=RN st eps) junk c h0 o)) = (Ok r, o1) ->
    construct (num:=RN st eps) junk c (rebuilt c params masses) = (Ok tt, o2) ->
  let P := sm_of c (fun j => nth j (rebuilt c params masses) 0) in
  regular P bs -> (forall k, (k < 4)%nat -> is_neutrino (flavour_of p k) = false -> 0 < sm_mass P (flavour_of p k)) ->
  forall q1 q2 q3 q4 : vec4 R, let q k := match k with 0 => q1 | 1 => q2 | 2 => q3 | _ => q4 end%nat in
    (forall k, (k < 4)%nat -> on_shell (sm_mass P (flavour_of p k)) (q k) /\ 0 <= v_0 (q k)) -> vadd q1 q2 = vadd q3 q4 ->
  forall h, forallb no_setter h = true ->
    let g := callm (num:=RN st eps) junk c n_set_momenta [GMom (num:=RN st eps) q1; GMom (num:=RN st eps) q2; GMom (num:=RN st eps) q3; GMom (num:=RN st eps) q4]
               (snd (orun (num:=RN st eps) junk c h o1)) in
  forall rs, forallb reading rs = true ->
  forall chi, (forall k, (k < 4)%nat -> complete_spinors P p (fun j => pvec (q j)) k (chi k)) ->
    fst g = Ok None /\
    fst (callm (num:=RN st eps) junk c n_amp2 [] (snd (orun (num:=RN st eps) junk c rs (snd g)))) =
      Ok (Some (RtT (num:=RN st eps) (feynman_amp2 P p bs (fun j => pvec (q j)) chi))).
Proof.
  intros e He c p bs st eps Heps junk params masses o o1 o2 r h0 EC Hh0 E1 E2 P HG HM q1 q2 q3 q4 q HSE HC h Hh g rs Hrs chi Hchi.
  assert (NS : forall e, In e ff_entries -> named stale (e_cls e) = false /\ argless (e_cls e) n_amp2).
  { clear. intros e He.
    assert (K : forallb (fun e => negb (named stale (e_cls e)) && match find_meth (e_cls e) n_amp2 with Some f => match m_params f with [] => true | _ => false end | None => false end) ff_entries = true)
      by (vm_cast_no_check (eq_refl true)).
    pose proof (proj1 (forallb_forall _ _) K e He) as X. cbv beta in X. apply andb_prop in X as [X1 X2]. apply negb_true_iff in X1. split; [exact X1|].
    destruct (find_meth (e_cls e) n_amp2) as [f|] eqn:EF; [|discriminate X2]. destruct (m_params f) eqn:EQ; [|discriminate X2]. exists f. split; assumption. }
  destruct (NS e He) as [N1 N2].
  destruct (C44_rebuilding_reals_partial c (entry_sm e He) N1 st eps junk params masses o o1 o2 r h0 h [] EC Hh0 E1 E2 Hh eq_refl q1 q2 q3 q4) as [K1 K2].
  destruct (C56_feynman_rules e He st eps Heps junk (rebuilt c params masses) o2 E2 HG HM q1 q2 q3 q4 HSE HC [] eq_refl [] eq_refl chi Hchi) as [F1 F2].
  assert (G1 : fst g = Ok None) by (etransitivity; [exact K1|exact F1]). split; [exact G1|].
  etransitivity; [exact (K2 ltac:(change (isOk (fst g) = true); rewrite G1; reflexivity) rs [] Hrs eq_refl n_amp2 N2)|exact F2].
Qed.
Print Assumptions C56_feynman_rules_set_masses.

(** No class with four outer fermions is missing from [ff_entries]. *)
Theorem C56_all_four_fermion_classes : forall c, In c sm_classes ->
  (forall a, In a (legs c) -> one_of "AgWZh" a = false) -> In (c_name c) (map (fun e => c_name (e_cls e)) ff_entries).
Proof.
  intros c Hc HL.
  assert (K : forallb (fun c => existsb (one_of "AgWZh") (legs c) || existsb (String.eqb (c_name c)) (map (fun e => c_name (e_cls e)) ff_entries)) sm_classes = true)
    by (vm_cast_no_check (eq_refl true)).
  pose proof (proj1 (forallb_forall _ _) K c Hc) as X. cbv beta in X. clear K. apply orb_prop in X as [X|X].
  - apply existsb_exists in X as (a & Ha & Ea). rewrite (HL a Ha) in Ea. discriminate Ea.
  - apply existsb_exists in X as (n & Hn & En). apply String.eqb_eq in En. rewrite En. exact Hn.
Qed.
Print Assumptions C56_all_four_fermion_classes.

Lemma eenene_built : match built true eenene with POk _ => true | _ => false end = true.
Proof. vm_cast_no_check (eq_refl true). Qed.
Definition ex56 (k : nat) : vec4 R :=
  match k with 0%nat => V4 13 0 0 5 | 1%nat => V4 13 0 0 (-5) | 2%nat => V4 13 0 0 13 | _ => V4 13 0 0 (-13) end.
(** e e > nu nu with e = 1, me = 12, mW = 80, sin = 3/5 and widths 2, at energies 13 (the class drops the width
    of the Z: [PropsWidth.widthless]). *)
Example C56_example :
  exists (o : obj (RN false 0)) (chi : nat -> bool -> spin4), construct (num:=RN false 0) (fun _ _ => 0) eenene [1; 12; 80; 2; 3 / 5; 2] = (Ok tt, o) /\
    let P := mkSM 1 0 (3 / 5) 80 0 0 2 0 (fun f => match f with Fe => 12 | _ => 0 end) in let p := (l_ Fe, a_ Fe, l_ Fne, a_ Fne) in
    let q := ex56 in
    (forall k, (k < 4)%nat -> complete_spinors P p (fun j => pvec (q j)) k (chi k)) /\ diagrams all_bosons p <> [] /\
    let g := callm (num:=RN false 0) (fun _ _ => 0) eenene n_set_momenta
      [GMom (num:=RN false 0) (q 0%nat); GMom (num:=RN false 0) (q 1%nat); GMom (num:=RN false 0) (q 2%nat); GMom (num:=RN false 0) (q 3%nat)] o in
    fst (callm (num:=RN false 0) (fun _ _ => 0) eenene n_amp2 [] (snd g)) = Ok (Some (RtT (num:=RN false 0) (feynman_amp2 P p all_bosons (fun j => pvec (q j)) chi))).
Proof.
  destruct (built true eenene) as [|e|b] eqn:EB; [pose proof eenene_built as X; rewrite EB in X; discriminate X|pose proof eenene_built as X; rewrite EB in X; discriminate X|].
  destruct (new_real 0 (fun _ _ => 0) eenene [1; 12; 80; 2; 3 / 5; 2] b EB eq_refl) as (o & HR & EC & _). exists o.
  set (P := mkSM 1 0 (3 / 5) 80 0 0 2 0 (fun f => match f with Fe => 12 | _ => 0 end)). set (p := (l_ Fe, a_ Fe, l_ Fne, a_ Fne)).
  set (q := ex56).
  assert (HP : sm_of eenene (fun j => nth j [1; 12; 80; 2; 3 / 5; 2] 0) = P).
  { unfold P, sm_of. f_equal; try (apply functional_extensionality; intros []; reflexivity). }
  assert (HSE : forall k, (k < 4)%nat -> on_shell (sm_mass P (flavour_of p k)) (q k) /\ 0 <= v_0 (q k)).
  { intros [|[|[|[|k]]]] Hk; [..|lia]; (split; [unfold on_shell, minksq; cbn; lra|cbn; lra]). }
  assert (X : forall k, (k < 4)%nat -> exists chi, complete_spinors P p (fun j => pvec (q j)) k chi).
  { intros k Hk. destruct (HSE k Hk). apply complete_spinors_exist; try assumption. destruct k as [|[|[|k]]]; cbn; lra. }
  destruct (choose4 (fun k chi => complete_spinors P p (fun j => pvec (q j)) k chi) (fun _ _ => RtoC 0) X) as (chi & Hchi & _).
  exists chi. split; [exact EC|]. cbv zeta. split; [exact Hchi|]. split; [discriminate|].
  assert (He : In (Entry eenene p all_bosons) ff_entries) by (unfold ff_entries; do 7 apply in_cons; apply in_eq).
  pose proof (C56_feynman_rules _ He false 0 (Rle_refl 0) (fun _ _ => 0) [1; 12; 80; 2; 3 / 5; 2] o EC) as K. cbn [e_cls e_proc e_bosons] in K. cbv zeta in K. rewrite HP in K.
  assert (HC : vadd (q 0%nat) (q 1%nat) = vadd (q 2%nat) (q 3%nat)) by (unfold vadd, q, ex56; cbn [v_0 v_1 v_2 v_3]; f_equal; lra).
  refine (proj2 (K _ _ (q 0%nat) (q 1%nat) (q 2%nat) (q 3%nat) _ HC [] eq_refl [] eq_refl chi _)).
  - right. cbn. lra.
  - intros [|[|[|k]]] Hk HN; clear - HN; cbn in HN |- *; try discriminate HN; lra.
  - intros [|[|[|[|k]]]] Hk; [exact (HSE 0%nat Hk)|exact (HSE 1%nat Hk)|exact (HSE 2%nat Hk)|exact (HSE 3%nat Hk)|lia].
  - exact Hchi.
Qed.
