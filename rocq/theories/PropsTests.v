(** * Theorems on the test functions of the process classes: C63 *)
From Coq Require Import Reals QArith ZArith String Ascii Lra Lia Classical.
From Flocq Require Import BinarySingleNaN.
From Verif Require Import Base Scalar RealNum ParticleReal Linear Integers Utilities Particle Sproduct Propagator Process
  ParticleProofs Ready ParticleClaims SpecSproduct WorldProofs Lang LangFrame Pure PureProofs ReadOnly Sym SMNames
  IEEE SMRun SMTwins SMMasses SMAll SMChecks PropsUtil PropsClasses PropsConstruct Harness SMFloat TestLang TestHarness SMTests TestSym TestProofs.
Close Scope Q_scope.
Close Scope R_scope.
Open Scope st_scope.

Lemma tests_classes : map t_cls sm_tests = sm_classes.
Proof. reflexivity. Qed.
(** the places of the tests of main among all tests *)
Definition main_places : list nat :=
  [66; 63; 133; 114; 139; 140; 138; 127; 134; 120; 135; 121; 137; 126; 43; 49; 38; 39; 40; 44; 42; 48; 65; 70;
    61; 62; 68; 75; 67; 74; 103; 104; 101; 102; 119; 113; 118; 125; 96; 97; 64; 69; 57; 51; 60; 54; 55; 50; 2;
    10; 13; 59; 53; 58; 52; 107; 100; 106; 99; 105; 98; 136; 124; 129; 109; 132; 112; 128; 3; 108; 11; 16;
    131; 111; 130; 110; 122; 91; 80; 86; 77; 85; 84; 87; 41; 47; 34; 28; 37; 32; 33; 1; 27; 9; 12; 36; 31; 35;
    19; 45; 90; 79; 81; 76; 29; 82; 46; 72; 95; 71; 15; 73; 26; 116; 123; 115; 7; 78; 30; 117; 20; 94; 93; 89;
    92; 88; 14; 5; 25; 21; 0; 4; 8; 6; 24; 23; 22; 17; 18; 83]%nat.
Lemma main_in t : In t main_tests -> In t sm_tests.
Proof.
  assert (E : main_tests = map (fun k => nth k sm_tests test_AAWW) main_places) by reflexivity.
  assert (L : forallb (fun k => Nat.ltb k (length sm_tests)) main_places = true) by reflexivity.
  rewrite E. intros H. apply in_map_iff in H as (k & <- & Hk). apply nth_In. apply Nat.ltb_lt. exact (proj1 (forallb_forall _ _) L k Hk).
Qed.
Lemma main_all : forallb (fun t => negb (is_eeAZ t)) main_tests = true.
Proof. reflexivity. Qed.
Lemma sm_check63 : forallb (fun t => is_eeAZ t || check63 t) sm_tests = true.
Proof. vm_cast_no_check (eq_refl true). Qed.

Section One.
  Variable t : test.
  Hypothesis Ht : In t sm_tests.
  Hypothesis Hn : is_eeAZ t = false.
  Lemma test_class : In (t_cls t) sm_classes.
  Proof. rewrite <- tests_classes. apply in_map, Ht. Qed.
  Lemma test_checked : exists b b2 s, shape (t_cls t) = POk b /\
    (forall f, find_meth (t_cls t) n_set_masses = Some f -> setm (t_cls t) b = POk b2) /\
    ssteps (t_cls t) b b2 (t_prog t) sstart = Some s /\ (nruns (t_prog t) <= 1000000)%Z.
  Proof.
    pose proof (proj1 (forallb_forall _ _) sm_check63 t Ht) as K. cbn beta in K. rewrite Hn in K. cbn [orb] in K. unfold check63 in K.
    destruct (shape (t_cls t)) as [|e|b] eqn:EB; try discriminate K.
    destruct (ssteps (t_cls t) b _ (t_prog t) sstart) as [s|] eqn:ES; [|discriminate K].
    exists b. eexists. exists s. split; [reflexivity|]. split; [|split; [exact ES|apply Z.leb_le, K]].
    intros f Hf. destruct (setm_c (t_cls t) test_class b f Hf EB) as (_ & b2 & E & _). rewrite E. reflexivity.
  Qed.
End One.

(** C63, the masses.  Wherever a test function calls the harness, in whatever arithmetic:
    the object exists, and the four masses handed to the harness are the masses of its
    external particles at that moment (after the constructor and the set_masses calls so
    far).  The arithmetic is one in which 0 and 0.0, 1 and 1.0 are the same numbers. *)
Theorem C63_masses :
  forall t, In t sm_tests -> c_name (t_cls t) <> "eeAZ"%string ->
  forall num : Num, strict num = false -> int_literals num ->
  forall (junk : id -> nat -> T num) fuel tables g pre m1 m2 m3 m4 p runs post,
    t_prog t = (pre ++ TRuns m1 m2 m3 m4 p runs :: post)%list ->
  forall i s, texec junk fuel tables (t_cls t) pre 0 (tstart g) = (Ok i, s) ->
  exists o v1 v2 v3 v4 vp,
    ts_obj s = Some o /\ xevals (ts_vars s) [m1; m2; m3; m4; p] = Ok [v1; v2; v3; v4; vp] /\
    leg_mass o 0 v1 /\ leg_mass o 1 v2 /\ leg_mass o 2 v3 /\ leg_mass o 3 v4.
Proof.
  intros t Ht Hn num HS HI junk fuel tables g pre m1 m2 m3 m4 p runs post EP i s ET.
  assert (Hn' : is_eeAZ t = false) by (apply String.eqb_neq; exact Hn).
  destruct (test_checked t Ht Hn') as (b & b2 & s' & EB & EB2 & ES & _). rewrite EP in ES. apply ssteps_app in ES as (s1 & E1 & E2).
  pose proof (steps_keep HS HI junk fuel tables (t_cls t) (test_class t Ht) b b2 EB EB2 pre sstart s1 (tstart g) 0 i s (related_start junk (t_cls t) g) E1 ET) as HR.
  cbn [ssteps] in E2. destruct (sstep (t_cls t) b b2 (TRuns m1 m2 m3 m4 p runs) s1) as [s2|] eqn:E3; [|discriminate E2].
  destruct (at_runs HI junk (t_cls t) b b2 s1 s2 s m1 m2 m3 m4 p runs HR E3) as (y1 & y2 & y3 & y4 & yp & ms & o & _ & EX & Eo & Ho & _ & HE & _).
  exists o, (den y1), (den y2), (den y3), (den y4), (den yp). split; [exact Eo|]. split; [exact EX|]. eapply held_legs; eauto.
Qed.
Print Assumptions C63_masses.

(** IEEE arithmetic is one: both builds of the library *)
Lemma int_literals_LD st lm : int_literals (LD st lm).
Proof. intros z [->| ->]; apply B2SF_inj; vm_compute; reflexivity. Qed.
Lemma int_literals_DD st lm : int_literals (DD st lm).
Proof. intros z [->| ->]; apply B2SF_inj; vm_compute; reflexivity. Qed.

(** C63, the points.  In exact arithmetic the masses and the momentum of every call are
    physical: massless particles have mass 0, massive ones a positive mass, and the energy
    suffices for the final state.  So each of the 20 points conserves energy and momentum,
    is on the mass shell of the object's particles, and has no negative energy. *)
Theorem C63_points :
  forall t, In t sm_tests -> c_name (t_cls t) <> "eeAZ"%string ->
  forall eps (junk : id -> nat -> R) fuel tables g pre m1 m2 m3 m4 p runs post,
    t_prog t = (pre ++ TRuns m1 m2 m3 m4 p runs :: post)%list ->
  let num := RN false eps in
  forall i s, texec (num:=num) junk fuel tables (t_cls t) pre 0 (tstart (num:=num) g) = (Ok i, s) ->
  exists (o : obj num) (v1 v2 v3 v4 vp : R),
    ts_obj s = Some o /\ xevals (num:=num) (ts_vars s) [m1; m2; m3; m4; p] = Ok [v1; v2; v3; v4; vp] /\
    (forall k m, In (k, m) [(0%nat, v1); (1%nat, v2); (2%nat, v3); (3%nat, v4)] ->
       leg_mass (num:=num) o k m /\ (0 <= m)%R /\
       (leg (t_cls t) k = Some true -> m = 0%R) /\ (leg (t_cls t) k = Some false -> (0 < m)%R)) /\
    forall j, (j < 20)%nat ->
      let q := set_test_momenta (num:=num) (set_test_initializations (num:=num) v1 v2 v3 v4 vp) vp (cost_of (num:=num) j) in
      plus4 (q_1 q) (q_2 q) = plus4 (q_3 q) (q_4 q) /\
      (mdot (q_1 q) (q_1 q) = v1 * v1 /\ mdot (q_2 q) (q_2 q) = v2 * v2 /\
       mdot (q_3 q) (q_3 q) = v3 * v3 /\ mdot (q_4 q) (q_4 q) = v4 * v4)%R /\
      (0 <= v_0 (q_1 q) /\ 0 <= v_0 (q_2 q) /\ 0 <= v_0 (q_3 q) /\ 0 <= v_0 (q_4 q))%R.
Proof.
  intros t Ht Hn eps junk fuel tables g pre m1 m2 m3 m4 p runs post EP num i s ET.
  assert (Hn' : is_eeAZ t = false) by (apply String.eqb_neq; exact Hn).
  destruct (test_checked t Ht Hn') as (b & b2 & s' & EB & EB2 & ES & _). rewrite EP in ES. apply ssteps_app in ES as (s1 & E1 & E2).
  pose proof (steps_keep (num:=num) eq_refl (int_literals_R eps) junk fuel tables (t_cls t) (test_class t Ht) b b2 EB EB2 pre sstart s1 (tstart (num:=num) g) 0 i s (related_start (num:=RN false eps) junk (t_cls t) g) E1 ET) as HR.
  cbn [ssteps] in E2. destruct (sstep (t_cls t) b b2 (TRuns m1 m2 m3 m4 p runs) s1) as [s2|] eqn:E3; [|discriminate E2].
  destruct (at_runs (num:=num) (int_literals_R eps) junk (t_cls t) b b2 s1 s2 s m1 m2 m3 m4 p runs HR E3) as (y1 & y2 & y3 & y4 & yp & ms & o & _ & EX & Eo & Ho & _ & HE & HK & _).
  exists o, (den (num:=num) y1), (den (num:=num) y2), (den (num:=num) y3), (den (num:=num) y4), (den (num:=num) yp). split; [exact Eo|]. split; [exact EX|].
  destruct (held_legs (num:=num) junk (t_cls t) _ _ o y1 y2 y3 y4 Ho HE) as (L1 & L2 & L3 & L4).
  unfold kin_ok in HK. apply andb_prop in HK as [HK HA]. apply andb_prop in HK as [HK K4]. apply andb_prop in HK as [HK K3]. apply andb_prop in HK as [K1 K2].
  destruct (above_sound false eps y1 y2 y3 y4 yp HA) as ((A1 & A2 & A3 & A4 & A5) & A6 & A7).
  split.
  - assert (G : forall k y, leg_ok (t_cls t) k y = true -> leg_mass (num:=num) o k (den (num:=num) y) -> (0 <= den (num:=num) y)%R ->
      leg_mass (num:=num) o k (den (num:=num) y) /\ (0 <= den (num:=num) y)%R /\
      (leg (t_cls t) k = Some true -> den (num:=num) y = 0%R) /\ (leg (t_cls t) k = Some false -> (0 < den (num:=num) y)%R)).
    { intros k y HL HM H0. split; [exact HM|]. split; [exact H0|]. split; [apply (leg_ok_zero eps), HL|].
      intros HF. pose proof (leg_ok_nonzero eps (t_cls t) k y HL HF) as NZ. destruct H0 as [H0|H0]; [exact H0|]. symmetry in H0. contradiction. }
    intros k m [H|[H|[H|[H|[]]]]]; injection H as <- <-; apply G; assumption.
  - intros j Hj q.
    destruct (C30_two_to_two false eps (den (num:=num) y1) (den (num:=num) y2) (den (num:=num) y3) (den (num:=num) y4) (den (num:=num) yp) (cost_of (num:=num) j)
      A1 A2 A3 A4 A5 (cost_range false eps j Hj) A6 A7) as (C1 & C2 & _ & C3 & _). auto.
Qed.
Print Assumptions C63_points.

(** C63, the runs.  In exact arithmetic every test function returns, provided that the
    loop of boost_random_test_momenta ends: no exception is thrown, nothing is undefined,
    no int overflows.  The tables of reference values have 20 entries (their values do not
    matter) and the random numbers are not 0.  The loop does end if from anywhere in the
    stream one of the next [fuel] triples of random numbers is a velocity below 0.99. *)
Section Returns.
  Variable eps : R.
  Hypothesis He : (0 <= eps)%R.
  Notation num := (RN false eps).
  Lemma test_in_time t : In t sm_tests -> is_eeAZ t = false ->
    forall (junk : id -> nat -> T num) late fuel (tables : nat -> list (T num)) (g : stream num),
    (forall k, length (tables k) = 20%nat) -> rng_ready false eps late fuel g ->
    in_time late (fun z g' => (0 <= z <= 200 * nruns (t_prog t))%Z /\ rng_ready false eps late fuel g') (run_test (num:=num) junk fuel tables t g).
  Proof.
    intros Ht Hn junk late fuel tables g Htab Hg. destruct (test_checked t Ht Hn) as (b & b2 & s' & EB & EB2 & ES & HN).
    pose proof (steps_in_time eps He junk late fuel tables Htab (t_cls t) (test_class t Ht) b b2 EB EB2 (t_prog t) sstart s' (tstart (num:=num) g) 0 0
      (related_start (num:=num) junk (t_cls t) g) ES ltac:(lia) ltac:(lia) Hg) as K.
    unfold run_test. destruct (texec (num:=num) junk fuel tables (t_cls t) (t_prog t) 0 (tstart (num:=num) g)) as [[z|e|u] s]; exact K.
  Qed.
  Lemma late_or_not fuel (g : stream num) : (forall n, g n <> 0%R) -> rng_ready false eps (~ timely false eps fuel g) fuel g.
  Proof. intros Hg. split; [exact Hg|]. destruct (classic (timely false eps fuel g)); auto. Qed.
  Lemma not_timely fuel (g : stream num) : ~ timely false eps fuel g ->
    exists n, forall k, (k < fuel)%nat ->
      (99 / 100 <= sqrt (g (n + 3 * k)%nat * g (n + 3 * k)%nat + g (n + 3 * k + 1)%nat * g (n + 3 * k + 1)%nat +
        g (n + 3 * k + 2)%nat * g (n + 3 * k + 2)%nat))%R.
  Proof.
    intros H. apply not_all_ex_not in H as (n & H). exists n. intros k Hk. apply Rnot_lt_le. intros HS. apply H. exists k. auto.
  Qed.
End Returns.
Theorem C63_returns :
  forall t, In t sm_tests -> c_name (t_cls t) <> "eeAZ"%string ->
  forall eps, (0 <= eps)%R ->
  forall (junk : id -> nat -> R) fuel (tables : nat -> list R) (g : nat -> R),
    (forall k, length (tables k) = 20%nat) -> (forall n, g n <> 0%R) ->
  match run_test (num:=RN false eps) junk fuel tables t g with
  | (Ok z, g') => (0 <= z <= 200 * nruns (t_prog t))%Z
  | (Exn _, _) => False
  | (UB u, _) => u = LoopNotDone /\ exists n, forall k, (k < fuel)%nat ->
      (99 / 100 <= sqrt (g (n + 3 * k)%nat * g (n + 3 * k)%nat + g (n + 3 * k + 1)%nat * g (n + 3 * k + 1)%nat +
        g (n + 3 * k + 2)%nat * g (n + 3 * k + 2)%nat))%R
  end.
Proof.
  intros t Ht Hn eps He junk fuel tables g Htab Hg.
  assert (Hn' : is_eeAZ t = false) by (apply String.eqb_neq; exact Hn).
  pose proof (test_in_time eps He t Ht Hn' junk _ fuel tables g Htab (late_or_not eps fuel g Hg)) as K.
  destruct (run_test (num:=RN false eps) junk fuel tables t g) as [[z|e|u] g']; cbn [in_time] in K.
  - apply K.
  - exact K.
  - destruct u; try contradiction. split; [reflexivity|]. apply (not_timely eps fuel g K).
Qed.
Print Assumptions C63_returns.

(** ... and so does the part of main (SM/test.cpp) that calls them. *)
Theorem C63_main_returns :
  forall eps, (0 <= eps)%R ->
  forall (env : nat -> (id -> nat -> R) * (nat -> list R)) fuel (g : nat -> R),
    (forall k j, length (snd (env k) j) = 20%nat) -> (forall n, g n <> 0%R) ->
  match run_main (num:=RN false eps) env fuel 0 main_tests 0 g with
  | (Ok n, _) => (0 <= n <= 140)%Z
  | (Exn _, _) => False
  | (UB u, _) => u = LoopNotDone /\ exists n, forall k, (k < fuel)%nat ->
      (99 / 100 <= sqrt (g (n + 3 * k)%nat * g (n + 3 * k)%nat + g (n + 3 * k + 1)%nat * g (n + 3 * k + 1)%nat +
        g (n + 3 * k + 2)%nat * g (n + 3 * k + 2)%nat))%R
  end.
Proof.
  intros eps He env fuel g Htab Hg. change (nat -> (id -> nat -> T (RN false eps)) * (nat -> list (T (RN false eps)))) in (type of env).
  assert (K : forall late l, (forall t, In t l -> In t sm_tests /\ is_eeAZ t = false) -> forall k n (g : stream (RN false eps)), (0 <= n)%Z -> (n + Z.of_nat (length l) <= 140)%Z ->
    rng_ready false eps late fuel g ->
    in_time late (fun n' _ => (0 <= n' <= n + Z.of_nat (length l))%Z) (run_main (num:=RN false eps) env fuel k l n g)).
  { intros late. induction l as [|t l IH]; intros HL k n g0 Hn Hn2 Hg0; cbn [run_main].
    - cbn. lia.
    - destruct (HL t (or_introl eq_refl)) as [T1 T2]. cbn [length] in Hn2 |- *. rewrite Nat2Z.inj_succ in Hn2 |- *.
      eapply in_time_bind; [exact (test_in_time eps He t T1 T2 (fst (env k)) late fuel (snd (env k)) g0 (Htab k) Hg0)|].
      cbn beta. intros z g1 [R1 R2].
      assert (STEP : slift (S:=stream (RN false eps)) (if (z >? 0)%Z then int_add n 1 else Ok n) g1 = (Ok (if (z >? 0)%Z then n + 1 else n)%Z, g1)).
      { destruct (z >? 0)%Z; [|reflexivity]. unfold int_add, int_res. replace (in_int (n + 1)) with true; [reflexivity|].
        symmetry. unfold in_int, int_min, int_max. apply andb_true_intro. split; apply Z.leb_le; lia. }
      unfold sbind. rewrite STEP.
      assert (B : (n <= (if (z >? 0)%Z then n + 1 else n) <= n + 1)%Z) by (destruct (z >? 0)%Z; lia).
      eapply in_time_weaken; [apply (IH (fun t' H => HL t' (or_intror H)) (S k) (if (z >? 0)%Z then n + 1 else n)%Z g1); [lia|lia|exact R2]|].
      cbn beta. intros n' _ H. lia. }
  assert (IN : forall t, In t main_tests -> In t sm_tests /\ is_eeAZ t = false).
  { intros t Ht. split; [|apply negb_true_iff; exact (proj1 (forallb_forall _ _) main_all t Ht)].
    apply main_in, Ht. }
  specialize (K _ main_tests IN 0%nat 0%Z g ltac:(lia) ltac:(cbn; lia) (late_or_not eps fuel g Hg)).
  destruct (run_main (num:=RN false eps) env fuel 0 main_tests 0 g) as [[z|e|u] g']; cbn [in_time] in K.
  - exact K.
  - exact K.
  - destruct u; try contradiction. split; [reflexivity|]. apply (not_timely eps fuel g K).
Qed.
Print Assumptions C63_main_returns.

(** *** The exception: test_eeAZ, which main does not call

    It hands (me,me,MZ,MZ) to the harness although the third particle of eeAZ is the
    photon.  Its first call of set_momenta throws. *)
Section EeAZ.
  Variable eps : R.
  Hypothesis Heps : (0 <= eps < / 1000000)%R.
  Notation num := (RN false eps).
  Variable junk : id -> nat -> T num.
  Notation D := (den (num:=num)).

  Lemma photon_throws args ms y1 y2 y3 o q : held (num:=num) junk eeAZ args ms o ->
    map D ms = map D [y1; y2; TInt 0; y3] ->
    on_shell (D y1) (q_1 q) -> on_shell (D y2) (q_2 q) -> (1000 < minksq (q_3 q))%R ->
    fst (proc_momenta (num:=num) junk eeAZ (q_1 q) (q_2 q) (q_3 q) (q_4 q) o) = Exn MassShell.
  Proof.
    intros Ho HE S1 S2 S3. assert (Hc : In eeAZ sm_classes).
    { change eeAZ with (t_cls test_eeAZ). rewrite <- tests_classes. apply in_map. unfold sm_tests. 
      do 56 apply in_cons. left. reflexivity. }
    destruct (held_legs (num:=num) junk eeAZ args ms o y1 y2 (TInt 0) y3 Ho HE) as (L1 & L2 & L3 & _).
    destruct (shape_c eeAZ Hc) as (b & EB & HM & _).
    destruct (reached_twin (num:=num) junk eeAZ b o Hc EB HM (hd_r _ _ _ _ _ Ho)) as (HSh & _ & o0 & vT & vR & HAg).
    set (ql := [q_1 q; q_2 q; q_3 q; q_4 q]). destruct (HAg ql) as [AG _]. set (E := ext_of (num:=num) o0 ql []) in *.
    assert (XM : forall p m, (p < 4)%nat -> leg_mass (num:=num) o p m -> x_m E p = m).
    { intros p m Hp (P & E1 & E2). destruct (ag_m _ _ _ _ _ _ AG p Hp) as (P' & F1 & F2). rewrite E1 in F1. injection F1 as <-.
      unfold mass in E2. rewrite F2 in E2. change (Ok (x_m E p) = Ok m) in E2. congruence. }
    assert (RJ : rejects E mom_params = Some (Exn MassShell)).
    { cbn [rejects mom_params]. rewrite (XM 0%nat _ ltac:(lia) L1), (XM 1%nat _ ltac:(lia) L2), (XM 2%nat _ ltac:(lia) L3).
      change (x_q E 0) with (q_1 q). change (x_q E 1) with (q_2 q). change (x_q E 2) with (q_3 q).
      destruct (new_on_shell false eps (fun _ => 0%R) (D y1) (q_1 q) (proj1 Heps) S1) as (P1 & F1 & _).
      destruct (new_on_shell false eps (fun _ => 0%R) (D y2) (q_2 q) (proj1 Heps) S2) as (P2 & F2 & _).
      assert (N : fst (particle_new (num:=num) (fun _ => 0%R) (q_3 q) (D (TInt 0))) = Exn MassShell).
      { destruct (particle_new_real false eps (fun _ => 0%R) (q_3 q) (D (TInt 0))) as [[_ K]|[K _]]; [exact K|exfalso].
        change (D (TInt 0)) with 0%R in K. rewrite Rmult_0_l, Rminus_0_r, Rabs_pos_eq in K by lra. lra. }
      change (fun _ : nat => tZ (n:=num) 0) with (fun _ : nat => 0%R). change (T num) with R in *.
      rewrite F1, F2, N. reflexivity. }
    pose proof (set_momenta_reject (num:=num) eeAZ (dyn_mask eeAZ) b (takes_c eeAZ Hc) junk vT vR E o ql (Exn MassShell) eq_refl) as K.
    specialize (K ltac:(intros p Hp; do 4 (destruct p as [|p]; [reflexivity|]); lia) AG RJ).
    unfold proc_momenta, sbind. cbn [map ql] in K. change (mom num) with (vec4 R) in *.
    destruct (callm (num:=num) junk eeAZ n_set_momenta _ o) as [r o']. cbn [fst] in K. subst r. reflexivity.
  Qed.

  Lemma eeAZ_throws fuel tables g : fst (run_test (num:=num) junk fuel tables test_eeAZ g) = Exn MassShell.
  Proof.
    assert (Hc : In eeAZ sm_classes).
    { change eeAZ with (t_cls test_eeAZ). rewrite <- tests_classes. apply in_map. unfold sm_tests. 
      do 56 apply in_cons. left. reflexivity. }
    (* up to the first call of the harness *)
    set (pre := firstn 8 (t_prog test_eeAZ)).
    assert (CK : match shape eeAZ with
      | POk b => match ssteps eeAZ b b pre sstart with
                 | Some s => match sxs (ss_vars s) (map XVar [v_me; v_me; v_MZ; v_MZ; v_pspatial]), ss_m s with
                             | Some [y1; y2; y3; y4; yp], Some [n1; n2; n3; n4] =>
                                 teq y1 n1 && teq y2 n2 && teq (TInt 0) n3 && teq y4 n4 &&
                                 match ival y3 with Some (l, _) => (40 * unit12 <? l)%Z | None => false end
                             | _, _ => false
                             end
                 | None => false
                 end
      | _ => false end = true) by (vm_cast_no_check (eq_refl true)).
    destruct (shape eeAZ) as [|e|b] eqn:EB; try discriminate CK.
    destruct (ssteps eeAZ b b pre sstart) as [s|] eqn:ES; [|discriminate CK].
    destruct (sxs (ss_vars s) _) as [ys|] eqn:EX; [|discriminate CK]. destruct ys as [|y1 [|y2 [|y3 [|y4 [|yp [|]]]]]]; try discriminate CK.
    destruct (ss_m s) as [[|n1 [|n2 [|n3 [|n4 [|]]]]]|] eqn:EM; try discriminate CK.
    apply andb_prop in CK as [CK C5]. apply andb_prop in CK as [CK C4]. apply andb_prop in CK as [CK C3]. apply andb_prop in CK as [C1 C2].
    assert (RUN : exists t1, texec (num:=num) junk fuel tables eeAZ pre 0 (tstart (num:=num) g) = (Ok 0%Z, t1) /\ related (num:=num) junk eeAZ s t1).
    { assert (G : forall l s0 t0, forallb (fun st => match st with TRuns _ _ _ _ _ _ | TSet _ _ => false | _ => true end) l = true ->
        related (num:=num) junk eeAZ s0 t0 -> ssteps eeAZ b b l s0 = Some s ->
        exists t1, texec (num:=num) junk fuel tables eeAZ l 0 t0 = (Ok 0%Z, t1) /\ related (num:=num) junk eeAZ s t1).
      { induction l as [|st l IH]; intros s0 t0 HF HR HS; cbn [ssteps texec] in *; [injection HS as <-; exists t0; auto|].
        cbn [forallb] in HF. apply andb_prop in HF as [F1 F2].
        destruct (sstep eeAZ b b st s0) as [s1|] eqn:E1; [|discriminate HS]. cbn [obind] in HS.
        assert (E1' : forall b2, sstep eeAZ b b2 st s0 = Some s1) by (intros b2; destruct st; try discriminate F1; exact E1).
        destruct (setm_c eeAZ Hc b (match find_meth eeAZ n_set_masses with Some f => f | None => mkMeth n_amp2 [] SSkip end) eq_refl EB) as (_ & b2 & EB2 & _).
        pose proof (step_returns (num:=num) eq_refl junk fuel tables eeAZ Hc b b2 EB (fun _ _ => EB2) st s0 s1 t0 0 HR (E1' b2)) as K.
        assert (K' : exists t', tstep (num:=num) junk fuel tables eeAZ st 0 t0 = (Ok 0%Z, t') /\ related (num:=num) junk eeAZ s1 t' /\ ts_rng t' = ts_rng t0)
          by (destruct st; try discriminate F1; exact K).
        destruct K' as (t1 & K1 & K2 & _). unfold sbind. rewrite K1. apply (IH s1 t1 F2 K2 HS). }
      apply (G pre sstart (tstart (num:=num) g)); [reflexivity|apply related_start|exact ES]. }
    destruct RUN as (t1 & R1 & HR).
    pose proof (sxs_sound (ss_vars s) (ts_vars t1) (rl_v _ _ _ _ HR) _ _ EX) as EV. destruct (rl_o _ _ _ _ HR _ EM) as (o & Eo & Ho).
    pose proof (int_literals_R eps) as HI.
    assert (HE : map D [n1; n2; n3; n4] = map D [y1; y2; TInt 0; y4]).
    { cbn [map]. rewrite (teq_sound HI y1 n1 C1), (teq_sound HI y2 n2 C2), (teq_sound HI y4 n4 C4), <- (teq_sound HI (TInt 0) n3 C3). reflexivity. }
    (* the first point *)
    set (q := set_test_momenta (num:=num) (set_test_initializations (num:=num) (D y1) (D y2) (D y3) (D y4) (D yp)) (D yp) (cost_of (num:=num) 0)).
    destruct (lab_on_shell false eps (D y1) (D y2) (D y3) (D y4) (D yp) 0 ltac:(lia)) as (S1 & S2 & S3 & _). fold q in S1, S2, S3.
    assert (BIG : (1000 < minksq (q_3 q))%R).
    { unfold on_shell in S3. rewrite S3. destruct (ival y3) as [[l h]|] eqn:E3; [|discriminate C5]. apply Z.ltb_lt, IZR_lt in C5.
      destruct (ival_sound false eps y3 _ E3) as [_ [K _]]. cbn [fst] in K. rewrite mult_IZR in C5. pose proof U_pos as HU.
      assert (40 < D y3)%R by (apply (Rmult_lt_reg_r (IZR unit12)); [exact HU|]; eapply Rlt_le_trans; [exact C5|exact K]).
      change (T num) with R in *. nra. }
    pose proof (photon_throws _ _ y1 y2 y4 o q Ho HE S1 S2 BIG) as PT.
    unfold run_test. change (t_prog test_eeAZ) with (pre ++ skipn 8 (t_prog test_eeAZ))%list. change (t_cls test_eeAZ) with eeAZ.
    assert (APP : forall l1 l2 i t0, texec (num:=num) junk fuel tables eeAZ (l1 ++ l2) i t0 =
      (do i' <- texec (num:=num) junk fuel tables eeAZ l1 i; texec (num:=num) junk fuel tables eeAZ l2 i') t0).
    { induction l1 as [|st l1 IH]; intros l2 i t0; cbn [app texec]; [reflexivity|]. unfold sbind.
      destruct (tstep (num:=num) junk fuel tables eeAZ st i t0) as [[z|e|u] t2]; [|reflexivity..]. rewrite IH. reflexivity. }
    rewrite APP. unfold sbind at 1. rewrite R1. cbn [skipn t_prog test_eeAZ texec]. unfold sbind at 1. cbn [tstep].
    cbn [map] in EV. rewrite EV, Eo. cbn [map run_all harness].
    unfold sbind at 1. unfold test_2to2_amp2. cbv zeta. cbn [sfor]. unfold sbind at 1. fold q. unfold tally, amp_at. unfold sbind at 1. unfold sbind at 1. unfold on_proc at 1. cbn [fst snd].
    change (vec4 R) with (mom num) in PT.
    destruct (proc_momenta (num:=num) junk eeAZ (q_1 q) (q_2 q) (q_3 q) (q_4 q) o) as [r o1]. cbn [fst] in PT. subst r. reflexivity.
  Qed.
End EeAZ.

Theorem C63_refuted :
  exists t, In t sm_tests /\
  forall eps, (0 <= eps < / 1000000)%R ->
  forall (junk : id -> nat -> R) fuel tables g, fst (run_test (num:=RN false eps) junk fuel tables t g) = Exn MassShell.
Proof.
  exists test_eeAZ. split; [unfold sm_tests; do 56 apply in_cons; left; reflexivity|].
  intros eps He junk fuel tables g. apply eeAZ_throws, He.
Qed.
Print Assumptions C63_refuted.

(** *** Examples *)
(** A generator that always delivers 1/2: the loop ends after one iteration, so all the
    tests but test_eeAZ return, and so does main. *)
Definition half (n : nat) : R := (/ 2)%R.
Definition ones (k : nat) : list R := repeat 1%R 20.
Lemma half_slow : (sqrt (/ 2 * / 2 + / 2 * / 2 + / 2 * / 2) < 99 / 100)%R.
Proof. rewrite <- (sqrt_square (99 / 100)) by lra. apply sqrt_lt_1; lra. Qed.
Example C63_returns_ex t : In t sm_tests -> c_name (t_cls t) <> "eeAZ"%string ->
  exists z g', run_test (num:=RN false 0) (fun _ _ => 0%R) 1 ones t half = (Ok z, g') /\ (0 <= z <= 200 * nruns (t_prog t))%Z.
Proof.
  intros Ht Hn. pose proof (C63_returns t Ht Hn 0 (Rle_refl 0) (fun _ _ => 0%R) 1 ones half (fun _ => eq_refl)
    (fun _ => Rinv_neq_0_compat 2 ltac:(lra))) as K.
  destruct (run_test (num:=RN false 0) (fun _ _ => 0%R) 1 ones t half) as [[z|e|u] g'].
  - eauto.
  - contradiction.
  - destruct K as (_ & n & K). specialize (K 0%nat ltac:(lia)). unfold half in K. pose proof half_slow. exfalso. lra.
Qed.
Example C63_main_returns_ex :
  exists n g', run_main (num:=RN false 0) (fun _ => (fun _ _ => 0%R, ones)) 1 0 main_tests 0 half = (Ok n, g') /\ (0 <= n <= 140)%Z.
Proof.
  pose proof (C63_main_returns 0 (Rle_refl 0) (fun _ => (fun _ _ => 0%R, ones)) 1 half (fun _ _ => eq_refl)
    (fun _ => Rinv_neq_0_compat 2 ltac:(lra))) as K.
  destruct (run_main (num:=RN false 0) (fun _ => (fun _ _ => 0%R, ones)) 1 0 main_tests 0 half) as [[z|e|u] g'].
  - eauto.
  - contradiction.
  - destruct K as (_ & n & K). specialize (K 0%nat ltac:(lia)). unfold half in K. pose proof half_slow. exfalso. lra.
Qed.
(** So every call of the harness is reached: the hypothesis of C63_masses and C63_points. *)
Lemma prefix_runs {num : Num} junk fuel tables c l1 l2 : forall i (s : tst num) z s',
  texec junk fuel tables c (l1 ++ l2) i s = (Ok z, s') -> exists i1 s1, texec junk fuel tables c l1 i s = (Ok i1, s1).
Proof.
  induction l1 as [|st l1 IH]; intros i s z s' E; [eexists; eexists; reflexivity|]. cbn [app texec] in *. unfold sbind in *.
  destruct (tstep junk fuel tables c st i s) as [[z1|e|u] s1]; [|discriminate E..]. exact (IH _ _ _ _ E).
Qed.
Example C63_points_ex t : In t sm_tests -> c_name (t_cls t) <> "eeAZ"%string ->
  forall pre m1 m2 m3 m4 p runs post, t_prog t = (pre ++ TRuns m1 m2 m3 m4 p runs :: post)%list ->
  exists i s, texec (num:=RN false 0) (fun _ _ => 0%R) 1 ones (t_cls t) pre 0 (tstart (num:=RN false 0) half) = (Ok i, s).
Proof.
  intros Ht Hn pre m1 m2 m3 m4 p runs post EP. destruct (C63_returns_ex t Ht Hn) as (z & g' & E & _). unfold run_test in E.
  destruct (texec (num:=RN false 0) (fun _ _ => 0%R) 1 ones (t_cls t) (t_prog t) 0 (tstart (num:=RN false 0) half)) as [r s'] eqn:ET.
  injection E as -> _. rewrite EP in ET. exact (prefix_runs _ _ _ _ _ _ _ _ _ _ ET).
Qed.
(** test_eemm in IEEE arithmetic: the first call is reached, too. *)
Example C63_masses_ex : exists s,
  t_prog test_eemm = (firstn 9 (t_prog test_eemm) ++
    TRuns (XVar v_me) (XVar v_me) (XVar v_mmu) (XVar v_mmu) (XVar v_pspatial)
      [(HLab, n_amp2, 0); (HRot, n_amp2, 0); (HBoost, n_amp2, 0); (HBoth, n_amp2, 0)] :: skipn 10 (t_prog test_eemm))%nat%list /\
  texec (num:=XN) (fun _ _ => tZ 0) 1 (fun _ => []) eemm (firstn 9 (t_prog test_eemm)) 0 (tstart (num:=XN) (fun _ => tZ 1)) = (Ok 0%Z, s).
Proof.
  assert (K : exists s, texec (num:=XN) (fun _ _ => tZ 0) 1 (fun _ => []) eemm (firstn 9 (t_prog test_eemm)) 0 (tstart (num:=XN) (fun _ => tZ 1)) = (Ok 0%Z, s)).
  { assert (B : match fst (texec (num:=XN) (fun _ _ => tZ 0) 1 (fun _ => []) eemm (firstn 9 (t_prog test_eemm)) 0 (tstart (num:=XN) (fun _ => tZ 1))) with
              | Ok z => Z.eqb z 0 | _ => false end = true) by (vm_cast_no_check (eq_refl true)).
    destruct (texec (num:=XN) _ _ _ _ _ _ _) as [[z|e|u] s]; try discriminate B. cbn [fst] in B. apply Z.eqb_eq in B. subst z. eauto. }
  destruct K as (s & K). exists s. split; [reflexivity|exact K].
Qed.
