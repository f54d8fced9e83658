(** * Process objects after set_momenta

    Definitions and lemmas behind the theorems on all process classes: the state of a
    process object as the machine of Pure.v with symbolic numbers (Sym.v) sees it. *)
From Coq Require Import QArith Lia.
From Verif Require Import Base Scalar Linear Integers Particle Sproduct Propagator Process
  ParticleProofs Ready ParticleClaims SpecSproduct WorldProofs Lang LangFrame Pure PureProofs ReadOnly Sym SMNames.
Close Scope Q_scope.
Open Scope st_scope.

(** ** Construction *)
Definition Qw : oracle snum :=
  sym_oracle (fun _ => None) (fun _ _ => true) true (fun x => Some (TAt (AJunk x))).
Definition pars (c : cls) : list sT := map (fun k => TAt (APar k)) (seq 0 (length (c_params c))).
Definition shape (c : cls) : pres (pobj snum) := pconstruct Qw c (pars c).

Section Shape.
  Context {num : Num}.
  Variable junk : id -> nat -> T num.
  Variable c : cls.

  Definition rT0 (params : list (T num)) (a : tatom) : T num :=
    match a with APar k => nth k params (tZ 0) | AJunk x => junk x 0 | _ => tZ 0 end.
  Definition rC0 : id -> list Z -> CX num := fun _ _ => c0.

  Lemma bind_len ps : forall (params : list (T num)) l l',
    bind_args (map (fun x => (x, PkT)) ps) (map GT params) l = Ok l' -> length params = length ps.
  Proof.
    induction ps as [|p ps IH]; intros [|x params] l l'; cbn [bind_args map bind_arg snd fst obind];
      intros E; try discriminate; [reflexivity|]. cbn. f_equal. eapply IH, E.
  Qed.
  Lemma construct_len params o : construct junk c params = (Ok tt, o) -> length params = length (c_params c).
  Proof.
    unfold construct. destruct (bind_args _ (map GT params) (env0 junk)) as [l|e|u] eqn:E; try discriminate.
    intros _. eapply bind_len, E.
  Qed.
  Lemma pars_den_app suf : forall pre,
    Forall2 (RTs (rT0 (pre ++ suf)) rC0) suf (map (fun k => TAt (APar k)) (seq (length pre) (length suf))).
  Proof.
    induction suf as [|x suf IH]; intros pre; cbn [length seq map]; constructor.
    - unfold RTs. cbn. rewrite app_nth2, Nat.sub_diag by lia. reflexivity.
    - specialize (IH (pre ++ [x])). rewrite app_length, <- app_assoc in IH. cbn in IH.
      rewrite Nat.add_1_r in IH. exact IH.
  Qed.
  Lemma pars_den params : length params = length (c_params c) -> Forall2 (RTs (rT0 params) rC0) params (pars c).
  Proof. intros E. unfold pars. rewrite <- E. exact (pars_den_app params []). Qed.

  Lemma Qw_ok params : oracle_ok false (RTs (rT0 params) rC0) (RCs (rT0 params) rC0) Qw.
  Proof. apply sym_ok; discriminate. Qed.
  Lemma construct_shape params o b : construct junk c params = (Ok tt, o) -> shape c = POk b ->
    OR false (RTs (rT0 params) rC0) (RCs (rT0 params) rC0) Qw o b.
  Proof.
    intros EC EB.
    assert (HJ : forall x y, q_junk Qw x = Some y -> (false = true -> strict num = false) /\ RTs (rT0 params) rC0 (junk x 0) y).
    { intros x y [= <-]. split; [discriminate|reflexivity]. }
    pose proof (construct_ref false _ _ _ (sym_hom (rT0 params) rC0) Qw (Qw_ok params) junk c HJ params (pars c)
                  (pars_den params (construct_len params o EC))) as K.
    fold (shape c) in K. rewrite EC, EB in K. exact K.
  Qed.

  (** ** What construction fixes once and for all *)
  Definition known (d : mask) (b : pobj snum) (x : id) : bool :=
    negb (k_T d x) && match b_T b x with Some _ => true | None => false end.
  Record shaped (b : pobj snum) (o : obj num) : Prop := mkShaped {
    sh_S : forall s t u, b_S b s = Some (t, u) -> stat_is (o_S o s) t;
    sh_h : length (o_heap o) = 4%nat;
    sh_m : forall p, (p < 4)%nat -> exists P m, nth_error (o_heap o) p = Some P /\ pa_m P = Val m }.
  Definition has_masses (b : pobj snum) : bool :=
    match b_P b with [(Some _, _); (Some _, _); (Some _, _); (Some _, _)] => true | _ => false end.
  Lemma construct_shaped params o b : construct junk c params = (Ok tt, o) -> shape c = POk b ->
    has_masses b = true -> shaped b o.
  Proof.
    intros EC EB HM. destruct (construct_shape params o b EC EB) as (Dd & HO).
    unfold has_masses in HM. destruct (b_P b) as [|[[m0|] q0] [|[[m1|] q1] [|[[m2|] q2] [|[[m3|] q3] [|]]]]] eqn:EP;
      try discriminate HM.
    constructor.
    - intros s t u E. apply (or_S _ _ _ _ _ _ _ HO s t u E).
    - rewrite (or_len _ _ _ _ _ _ _ HO), EP. reflexivity.
    - intros p Hp. assert (E : exists m q, nth_error (b_P b) p = Some (Some m, q)).
      { rewrite EP. do 4 (destruct p as [|p]; [cbn; eauto|]). lia. }
      destruct E as (m & q & E). destruct (or_M _ _ _ _ _ _ _ HO p m q E) as (P & v & E1 & E2 & _). eauto.
  Qed.
  Lemma construct_known d params o b x : construct junk c params = (Ok tt, o) -> shape c = POk b ->
    known d b x = true -> exists v, o_T o x = Val v.
  Proof.
    intros EC EB Hx. destruct (construct_shape params o b EC EB) as (Dd & HO).
    apply andb_prop in Hx as [_ Hx]. destruct (b_T b x) as [y|] eqn:Ex; [|discriminate].
    destruct (or_T _ _ _ _ _ _ _ HO x y Ex) as (v & -> & _). eauto.
  Qed.
  Lemma shaped_like k b o o' : shaped b o -> like k o o' -> shaped b o'.
  Proof.
    intros [S2 S3 S4] [L1 L2 L6 L3 [L4 L5]]. constructor.
    - intros s t u E. eapply stat_same; [apply L3|apply (S2 s t u E)].
    - congruence.
    - intros p Hp. destruct (S4 p Hp) as (P & m & E1 & E2). destruct (L5 _ _ E1) as (P' & E3 & _ & E4).
      destruct (E4 m E2) as (m' & E5). eauto.
  Qed.
End Shape.

(** ** The state before set_momenta *)
Definition jobj (d : mask) (b : pobj snum) : pobj snum :=
  mkPobj (num:=snum)
    (fun x => if known d b x then Some (TAt (AMem x)) else None)
    (fun _ => None)
    (fun r => if k_R d r then None else Some (mkPropagator (num:=snum) (TAt (APm r)) (TAt (APw r))))
    (fun s => match b_S b s with Some (t, _) => Some (t, false) | None => None end)
    (map (fun p => (Some (TAt (AMass p) : T snum), None)) (seq 0 4)).
Definition mkpat (a b c d : bool) (p : nat) : bool := match p with 0 => a | 1 => b | 2 => c | _ => d end.
Definition zero_pat (pat : nat -> bool) (y : sT) : option bool :=
  match y with TAt (AMass p) => Some (pat p) | _ => None end.
Definition accepts (m : sT) (q : mom snum) : bool :=
  match m, v_0 q, v_1 q, v_2 q, v_3 q with
  | TAt (AMass p), TAt (AMom p0 0), TAt (AMom p1 1), TAt (AMom p2 2), TAt (AMom p3 3) =>
      (p <? 4)%nat && Nat.eqb p p0 && Nat.eqb p p1 && Nat.eqb p p2 && Nat.eqb p p3
  | _, _, _, _, _ => false
  end.
Definition Qj (pat : nat -> bool) : oracle snum :=
  sym_oracle (zero_pat pat) accepts false (fun _ => None).
Definition smom (p : nat) : mom snum :=
  V4 (TAt (AMom p 0) : T snum) (TAt (AMom p 1) : T snum) (TAt (AMom p 2) : T snum) (TAt (AMom p 3) : T snum).
Definition smoms : list (arg snum) := map (fun p => GMom (smom p)) (seq 0 4).

Section Before.
  Context {num : Num}.
  Notation T := (T num).
  (** masses, momenta and other arguments *)
  Record ext : Type := mkExt { x_m : nat -> T; x_q : nat -> mom num; x_a : nat -> T }.
  Definition comp (q : mom num) (mu : nat) : T :=
    match mu with 0 => v_0 q | 1 => v_1 q | 2 => v_2 q | _ => v_3 q end.
  Definition rT1 (vT : id -> T) (vR : id -> propagator num) (E : ext) (a : tatom) : T :=
    match a with
    | AMem x => vT x
    | APm r => pr_m (vR r)
    | APw r => pr_w (vR r)
    | AMass p => x_m E p
    | AMom p mu => comp (x_q E p) mu
    | APar k => x_a E k
    | _ => tZ 0
    end.
  Definition cval (c : cell num) : T := match c with Val v => v | Indet v => v end.
  Definition omass (o : obj num) (p : nat) : T :=
    match nth_error (o_heap o) p with Some P => cval (pa_m P) | None => tZ 0 end.

  (** the atoms have the values the object has *)
  Record agrees (d : mask) (b : pobj snum) vT vR (E : ext) (o : obj num) : Prop := mkAgrees {
    ag_T : forall x, known d b x = true -> o_T o x = Val (vT x);
    ag_R : forall r, k_R d r = false -> o_R o r = vR r;
    ag_m : forall p, (p < 4)%nat -> exists P, nth_error (o_heap o) p = Some P /\ pa_m P = Val (x_m E p) }.
  Lemma agrees_like d b vT vR E o o' : (forall p, k_P d p = false) ->
    agrees d b vT vR E o -> like d o o' -> agrees d b vT vR E o'.
  Proof.
    intros HP [S1 S2 S4] [L1 L2 L6 L3 [L4 L5]]. constructor.
    - intros x Hx. rewrite L1; [apply S1, Hx|]. apply andb_prop in Hx as [Hx _]. apply negb_true_iff, Hx.
    - intros r Hr. rewrite L2 by exact Hr. apply S2, Hr.
    - intros p Hp. destruct (S4 p Hp) as (P & E1 & E2). destruct (L5 _ _ E1) as (P' & E3 & E4 & _).
      exists P'. split; [exact E3|]. rewrite E4 by apply HP. exact E2.
  Qed.
  (** the masses of an object and given momenta *)
  Definition ext_of (o : obj num) (q : list (mom num)) (a : list T) : ext :=
    mkExt (fun p => omass o (Nat.min p 3)) (fun p => nth p q (V4 (tZ 0) (tZ 0) (tZ 0) (tZ 0))) (fun k => nth k a (tZ 0)).
  Lemma agrees_self d b o q a : shaped b o -> (forall x, known d b x = true -> exists v, o_T o x = Val v) ->
    agrees d b (fun x => cval (o_T o x)) (o_R o) (ext_of o q a) o.
  Proof.
    intros [S2 S3 S4] S1. constructor.
    - intros x Hx. destruct (S1 x Hx) as (v & ->). reflexivity.
    - reflexivity.
    - intros p Hp. destruct (S4 p Hp) as (P & m & E1 & E2). exists P. split; [exact E1|].
      cbn. unfold omass. rewrite Nat.min_l by lia. rewrite E1, E2. reflexivity.
  Qed.

  Variable d : mask.
  Variable b : pobj snum.
  Variable vT : id -> T.
  Variable vR : id -> propagator num.
  Variable E : ext.
  Variable vC : id -> list Z -> CX num.
  Notation rT := (rT1 vT vR E).
  Lemma before_OR tot Q o : (forall x, q_junk Q x = None) -> shaped b o -> agrees d b vT vR E o ->
    OR tot (RTs rT vC) (RCs rT vC) Q o (jobj d b).
  Proof.
    intros HJ [S2 S3 S4] [A1 A2 A3]. exists (fun _ => particle_default (fun _ => tZ 0)).
    constructor; cbn [jobj b_T b_C b_R b_S b_P].
    - intros x y. destruct (known d b x) eqn:EK; [|discriminate]. intros [= <-]. exists (vT x). split; [apply A1, EK|reflexivity].
    - intros x y _. rewrite HJ. discriminate.
    - discriminate.
    - intros r y. destruct (k_R d r) eqn:ER; [discriminate|]. intros [= <-]. rewrite (A2 r ER). split; reflexivity.
    - exact S3.
    - intros p m' q' Ep. assert (Hp : (p < 4)%nat).
      { assert (Ep' : nth_error (map (fun p => (Some (TAt (AMass p) : Scalar.T snum), @None (mom snum))) (seq 0 4)) p <> None)
          by congruence. apply nth_error_Some in Ep'. rewrite map_length, seq_length in Ep'. exact Ep'. }
      destruct (A3 p Hp) as (P & E1 & E2). exists P, (x_m E p). split; [exact E1|]. split; [exact E2|].
      do 4 (destruct p as [|p]; [injection Ep as <- <-; reflexivity|]). lia.
    - intros p m' q' Ep. do 4 (destruct p as [|p]; [discriminate Ep|]). destruct p; discriminate Ep.
    - intros s t u Es. destruct (b_S b s) as [[t0 u0]|] eqn:E0; [|discriminate]. injection Es as <- <-.
      split; [exact (S2 s t0 u0 E0)|discriminate].
  Qed.

  (** the momenta are accepted *)
  Definition accepted : Prop := forall p, (p < 4)%nat ->
    fst (particle_new (fun _ => tZ 0) (x_q E p) (x_m E p)) = Ok tt.
  (** std::polar of a root never fails: true of every arithmetic in the lenient reading
      and of exact arithmetic (see [polar_lenient], [polar_real]) *)
  Definition polar_total : Prop := forall x phi : T, isOk (polar (tsqrt x) phi) = true.
  Lemma update_vals (P P' : particle num) : update P = (Ok tt, P') ->
    exists x phi, pa_pxymag P' = Val (tsqrt x) /\ pa_phi P' = Val phi.
  Proof.
    unfold update, sbind, modify, get, w_pxymag, w_pmag, f_p0, f_p1, f_p2, f_p3.
    cbn [rd v_0 v_1 v_2 v_3 pa_p pa_m pa_pmag pa_pxymag].
    destruct (rd (v_1 (pa_p P))) as [p1| |]; try discriminate.
    destruct (rd (v_2 (pa_p P))) as [p2| |]; try discriminate.
    destruct (rd (v_3 (pa_p P))) as [p3| |]; try discriminate.
    destruct (rd (v_0 (pa_p P))) as [p0| |]; try discriminate.
    cbn [rd v_0 v_1 v_2 v_3 pa_p pa_m pa_pmag pa_pxymag].
    destruct (rd (pa_m P)) as [m| |] eqn:Em; try discriminate.
    match goal with |- context [if ?b then sthrow _ else _] => destruct b end; unfold sthrow; try discriminate.
    cbn [rd w_theta w_phi pa_theta pa_phi pa_p pa_m pa_pmag pa_pxymag].
    unfold slift. destruct (polar _ _) as [s|e|u]; cbn [fst snd]; try discriminate. intros H. apply (f_equal snd) in H. cbn [snd] in H.
    rewrite <- H. eexists. eexists. split; reflexivity.
  Qed.
  Lemma mats_after m q : polar_total -> fst (particle_new (fun _ => tZ 0) q m) = Ok tt ->
    isOk (fst (umat (fresh (m, q)))) = true /\ isOk (fst (lmat (num:=num) (fresh (m, q)))) = true.
  Proof.
    intros HP. unfold fresh. cbn [fst snd]. unfold particle_new.
    destruct (update _) as [r P'] eqn:EU. cbn [fst snd]. intros ->.
    destruct (update_ok_empty _ _ EU) as [EM _].
    destruct (update_vals _ _ EU) as (x & phi & E1 & E2). pose proof (update_keeps_p _ _ _ EU) as E3.
    unfold umat, lmat, memo_mat. rewrite !EM. unfold umat_value, lmat_value, f_p0, f_p3. rewrite E1, E2, E3.
    cbn [rd cells v_0 v_3 w_p pa_p obind].
    pose proof (HP x (- phi)%ld) as K1. pose proof (HP x phi) as K2.
    destruct (polar (tsqrt x) (- phi)%ld); try discriminate K1. destruct (polar (tsqrt x) phi); try discriminate K2.
    split; reflexivity.
  Qed.
  Lemma Qj_ok pat : polar_total -> accepted -> (forall p, teqb (x_m E p) (tZ 0) = pat p) ->
    oracle_ok true (RTs rT vC) (RCs rT vC) (Qj pat).
  Proof.
    intros HP HA HZ. apply sym_ok.
    - intros y z. unfold zero_pat. destruct y; try discriminate. destruct k; try discriminate. intros [= <-]. apply HZ.
    - discriminate.
    - intros _ m q Hacc. unfold accepts in Hacc.
      destruct m; try discriminate. destruct k; try discriminate.
      destruct q as [q0 q1 q2 q3]; cbn [v_0 v_1 v_2 v_3] in Hacc.
      destruct q0; try discriminate. destruct k; try discriminate. destruct mu; try discriminate.
      destruct q1; try discriminate. destruct k; try discriminate. destruct mu as [|[|]]; try discriminate.
      destruct q2; try discriminate. destruct k; try discriminate. destruct mu as [|[|[|]]]; try discriminate.
      destruct q3; try discriminate. destruct k; try discriminate. destruct mu as [|[|[|[|]]]]; try discriminate.
      repeat (apply andb_prop in Hacc as [Hacc ?]). apply Nat.ltb_lt in Hacc.
      repeat match goal with H : Nat.eqb _ _ = true |- _ => apply Nat.eqb_eq in H; subst end.
      cbn [sdat_of dend fst snd v_0 v_1 v_2 v_3 denT rT1 comp].
      match goal with |- context [x_q E ?i] => specialize (HA i Hacc); destruct (x_q E i) as [z0 z1 z2 z3] eqn:EQ end.
      cbn [v_0 v_1 v_2 v_3]. split; [exact HA|]. apply mats_after; assumption.
  Qed.
  Lemma smoms_args (q : list (mom num)) : length q = 4%nat -> (forall p, (p < 4)%nat -> nth_error q p = Some (x_q E p)) ->
    Forall2 (Rarg (RTs rT vC)) (map GMom q) smoms.
  Proof.
    intros HL HQ. destruct q as [|a [|b0 [|c0 [|d0 [|]]]]]; try discriminate HL.
    assert (K1 : forall p a, Some a = Some (x_q E p) -> Rarg (RTs rT vC) (GMom a) (GMom (smom p))).
    { intros p v [= ->]. cbn. unfold Rmom, RTs. cbn. auto. }
    apply Forall2_cons; [apply K1, (HQ 0%nat); lia|]. apply Forall2_cons; [apply K1, (HQ 1%nat); lia|].
    apply Forall2_cons; [apply K1, (HQ 2%nat); lia|]. apply Forall2_cons; [apply K1, (HQ 3%nat); lia|]. apply Forall2_nil.
  Qed.
End Before.

(** ** Momenta a particle rejects *)
Definition is_I2T {a b} (o : unop a b) : bool := match o with I2T => true | _ => false end.
Definition const_e {t} (e : exp t) : bool :=
  match e with @EUn _ _ o (EInt _) => is_I2T o | _ => false end.
Fixpoint strip (s : stmt) : stmt :=
  match s with SSeq (SLoc rT _ e) s' => if const_e e then strip s' else s | _ => s end.
Fixpoint starts (s : stmt) (l : list (addr * id)) : bool :=
  match l with
  | [] => true
  | (p, x) :: l' =>
      match s with SSeq (SSetMomentum p' x') s' => Nat.eqb p p' && Pos.eqb x x' && starts s' l' | _ => false end
  end.
Definition mom_params : list (addr * id) := [(0, n_mom1); (1, n_mom2); (2, n_mom3); (3, n_mom4)]%nat.

Section Reject.
  Context {num : Num}.
  Variable junk : id -> nat -> T num.
  Variable call : id -> list (arg num) -> ST (obj num) (option (ret num)).
  Variable E : ext (num:=num).

  Lemma const_eval {t} (e : exp t) : const_e e = true -> exists v, forall s, eval call e s = (Ok v, s).
  Proof.
    assert (K : forall a b (o : unop a b) (x : val num a), is_I2T o = true -> exists v, un_sem o x = Ok v)
      by (intros a b o; destruct o; try discriminate; intros; eexists; reflexivity).
    destruct e as [| | | | | | | | |t1 t2 o e| | | | | | | | | | |]; try discriminate. destruct e; try discriminate.
    cbn [const_e]. intros H. destruct (K _ _ o z H) as (v & Ev). exists v. intros s.
    cbn [eval]. unfold sbind, sret, slift. rewrite Ev. reflexivity.
  Qed.
  Lemma strip_exec s : forall o l, exists l', l_aT l' = l_aT l /\ exec junk call s (o, l) = exec junk call (strip s) (o, l').
  Proof.
    induction s; intros o l; try (exists l; split; reflexivity). cbn [strip].
    destruct s1; try (exists l; split; reflexivity). destruct r; try (exists l; split; reflexivity).
    destruct (const_e e) eqn:EC; [|exists l; split; reflexivity].
    destruct (const_eval e EC) as (v & Ev). destruct (IHs2 o (w_T x (Val v) l)) as (l' & E1 & E2).
    exists l'. split; [exact E1|]. rewrite <- E2. cbn [exec]. unfold sbind at 1. unfold sbind at 1. rewrite Ev. reflexivity.
  Qed.

  (** what the first particle that rejects its momentum does *)
  Fixpoint rejects (l : list (addr * id)) : option (outcome (option (ret num))) :=
    match l with
    | [] => None
    | (p, _) :: l' =>
        match fst (particle_new (fun _ => tZ 0) (x_q E p) (x_m E p)) with
        | Ok _ => rejects l'
        | Exn e => Some (Exn e)
        | UB u => Some (UB u)
        end
    end.
  Definition has_mass (o : obj num) (p : addr) : Prop :=
    exists P, nth_error (o_heap o) p = Some P /\ pa_m P = Val (x_m E p).
  Definition has_mom (l : env num) (x : addr * id) : Prop :=
    l_aT l (snd x) = let q := x_q E (fst x) in [Val (v_0 q); Val (v_1 q); Val (v_2 q); Val (v_3 q)].
  Lemma rejected l : forall s o e r, starts s l = true -> Forall (fun x => has_mass o (fst x)) l -> Forall (has_mom e) l ->
    rejects l = Some r -> fst (exec junk call s (o, e)) = r.
  Proof.
    induction l as [|[p x] l IH]; intros s o e r HS HM HQ HR; [discriminate HR|].
    cbn [starts] in HS. destruct s; try discriminate HS. destruct s1; try discriminate HS.
    apply andb_prop in HS as [HS HS2]. apply andb_prop in HS as [HS HS1].
    apply Nat.eqb_eq in HS. apply Pos.eqb_eq in HS1. subst p0 x0.
    inversion HM as [|? ? HM1 HM2]; subst. inversion HQ as [|? ? HQ1 HQ2]; subst. clear HM HQ.
    cbn [fst] in HM1. destruct HM1 as (P & HP & Hm).
    assert (EM : mass P = Ok (x_m E p)) by (unfold mass; rewrite Hm; reflexivity).
    destruct (set_momentum_like_fresh (fun _ => tZ 0) (x_q E p) (x_m E p) P EM) as [EF _].
    cbn [rejects] in HR.
    assert (EX : exec junk call (SSetMomentum p x) (o, e) =
      (match fst (particle_new (fun _ => tZ 0) (x_q E p) (x_m E p)) with Ok _ => Ok None | Exn e => Exn e | UB u => UB u end,
       (u_heap (hset (o_heap o) p (snd (set_momentum (x_q E p) P))) o, e))).
    { rewrite <- EF. cbn [exec]. unfold sbind, getl, slift, void. unfold has_mom in HQ1. cbn [fst snd] in *. rewrite HQ1.
      destruct (x_q E p) as [q0 q1 q2 q3]. cbn [read4 rd obind v_0 v_1 v_2 v_3]. unfold sbind, ono, on_part. cbn [fst snd]. rewrite HP.
      destruct (set_momentum _ P) as [[[]|?|?] P']; reflexivity. }
    cbn [exec] in EX |- *. unfold sbind at 1. rewrite EX.
    destruct (fst (particle_new (fun _ => tZ 0) (x_q E p) (x_m E p))) as [[]|e1|u1].
    - apply (IH _ _ _ _ HS2); [|exact HQ2|exact HR].
      eapply Forall_impl; [|exact HM2]. intros [p' x'] (P' & HP' & Hm'). cbn [fst] in *.
      unfold has_mass. cbn [u_heap o_heap]. destruct (Nat.eq_dec p p') as [<-|N].
      + eexists. split; [eapply hset_same; eauto|]. rewrite keeps_set_momentum. exact Hm.
      + exists P'. rewrite hset_other by exact N. auto.
    - injection HR as <-. reflexivity.
    - injection HR as <-. reflexivity.
  Qed.
  Lemma accepted_or_rejects : accepted E \/ exists r, rejects mom_params = Some r.
  Proof.
    cbn [rejects mom_params]. unfold accepted.
    destruct (fst (particle_new (fun _ => tZ 0) (x_q E 0) (x_m E 0))) as [[]|e|u] eqn:E0; eauto.
    destruct (fst (particle_new (fun _ => tZ 0) (x_q E 1) (x_m E 1))) as [[]|e|u] eqn:E1; eauto.
    destruct (fst (particle_new (fun _ => tZ 0) (x_q E 2) (x_m E 2))) as [[]|e|u] eqn:E2; eauto.
    destruct (fst (particle_new (fun _ => tZ 0) (x_q E 3) (x_m E 3))) as [[]|e|u] eqn:E3; eauto.
    left. intros p Hp. do 4 (destruct p as [|p]; [assumption|]). lia.
  Qed.
End Reject.
