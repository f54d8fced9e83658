(** * Properties C40, C41, C52, C53: the test harness *)
From Coq Require Import Reals Lra QArith Qreals.
From Verif Require Import Base Scalar Integers Utilities Harness Particle RealNum ParticleReal Ready ParticleClaims
  UtilReal HarnessProofs PropsUtil.
Close Scope Q_scope.
Open Scope st_scope.

Lemma rotate_gen_cases {num} (q : quad (mom num)) g :
  match rotate_random_test_momenta q g with
  | (Ok _, _) => True | (Exn _, _) => False | (UB u, _) => u = BadDistribution end.
Proof.
  unfold rotate_random_test_momenta, choose_random_ldouble, sbind, sret.
  repeat (destruct (tgeb _ _); [|reflexivity]). exact I.
Qed.
Lemma boost_draw_cases {num : Num} fuel : forall (v : vec3 (T num)) vm g,
  match boost_draw fuel v vm g with
  | (Ok _, _) => True | (Exn _, _) => False | (UB u, _) => u = BadDistribution \/ u = LoopNotDone end.
Proof.
  induction fuel as [|fuel IH]; intros v vm g; cbn [boost_draw].
  - destruct (tgeb _ _); cbn; auto.
  - destruct (tgeb vm _); [|exact I]. unfold sbind at 1, choose_random_ldouble at 1.
    destruct (tgeb (tZ 1) (tZ 0)) eqn:E; [|left; reflexivity].
    unfold sbind at 1, choose_random_ldouble at 1. rewrite E.
    unfold sbind at 1, choose_random_ldouble at 1. rewrite E. apply IH.
Qed.
Lemma boost_gen_cases {num} fuel (q : quad (mom num)) g :
  match boost_random_test_momenta fuel q g with
  | (Ok _, _) => True | (Exn _, _) => False | (UB u, _) => u = BadDistribution \/ u = LoopNotDone end.
Proof.
  unfold boost_random_test_momenta, sbind.
  pose proof (boost_draw_cases fuel (V3 (tZ 0) (tZ 0) (tZ 0)) (tZ 2) g) as H.
  destruct (boost_draw _ _ _ g) as [[v|e|u] g']; auto.
Qed.

Section C40.
  Context {num : Num} {S : Type}.
  Variable set_momenta : mom num -> mom num -> mom num -> mom num -> ST S unit.
  Variable amp2 : ST S (T num).

  (** What counts as a failure: the amplitude is infinite, NaN, or differs from the datum
      both absolutely and relatively. *)
  Definition differs (rel : Q) (a d : T num) : bool :=
    tisinf a || tisnan a ||
    (tgtb (tabs (a - d)%ld) (lit (1 # 1000000000000000)) && tgtb (tabs (a - d) / tabs (a + d))%ld (lit rel)).
  Fixpoint failures (rel : Q) (amps data : list (T num)) : Z :=
    match amps, data with
    | a :: amps', d :: data' => ((if differs rel a d then 1 else 0) + failures rel amps' data')%Z
    | _, _ => 0%Z
    end.
  Lemma failures_count rel l d : failures rel l d = Z.of_nat (count_bad tol_abs rel l d).
  Proof.
    revert d. induction l as [|a l IH]; intros [|x d]; try reflexivity. cbn [failures]. rewrite IH.
    unfold count_bad. cbn [combine filter fst snd]. change (bad_point tol_abs rel a x) with (differs rel a x).
    destruct (differs rel a x); cbn [length]; lia.
  Qed.
  Lemma failures_range rel l : forall d, (0 <= failures rel l d <= Z.of_nat (length l))%Z.
  Proof. induction l as [|a l IH]; intros [|x d]; cbn [failures length]; try lia. specialize (IH d). destruct (differs rel a x); lia. Qed.

  (** The amplitudes of a list of phase space points, evaluated one after the other. *)
  Fixpoint amplitudes (qs : list (quad (mom num))) : ST S (list (T num)) :=
    match qs with
    | [] => sret []
    | q :: qs' =>
        set_momenta (q_1 q) (q_2 q) (q_3 q) (q_4 q) ;;
        do a <- amp2; do l <- amplitudes qs'; sret (a :: l)
    end.
  Lemma amplitudes_sweep qs : amplitudes qs = sweep set_momenta amp2 qs.
  Proof. reflexivity. Qed.

  Lemma test_loop (lab : nat -> quad (mom num)) data n : forall lo i s g,
    (lo + n <= length data)%nat -> (0 <= i)%Z -> (i + Z.of_nat n < 1000)%Z ->
    let r := amplitudes (map lab (seq lo n)) s in
    sfor lo n (fun j i => tally set_momenta amp2 tol_abs tol_9 data j (lab j) i) i (s, g) =
      (omap (fun l => i + failures tol_9 l (skipn lo data))%Z (fst r), (snd r, g)).
  Proof.
    induction n as [|n IH]; intros lo i s g HL H0 H1; cbn [seq map amplitudes sfor].
    - cbn. unfold sret. rewrite Z.add_0_r. reflexivity.
    - cbv zeta. unfold sbind at 1. unfold tally at 1. unfold sbind at 1. rewrite amp_at_proc. unfold sbind.
      destruct (set_momenta (q_1 (lab lo)) (q_2 (lab lo)) (q_3 (lab lo)) (q_4 (lab lo)) s) as [[[]|e|u] s1]; cbn [fst snd]; try reflexivity.
      destruct (amp2 s1) as [[a|e|u] s2]; cbn [fst snd]; try reflexivity.
      unfold slift at 1, arr_get.
      destruct (nth_error data lo) as [d|] eqn:ED; [|apply nth_error_None in ED; lia].
      assert (SK : skipn lo data = d :: skipn (Datatypes.S lo) data).
      { clear - ED. revert lo ED. induction data as [|x l IH]; intros [|lo] ED; try discriminate.
        - injection ED as ->. reflexivity.
        - cbn [skipn]. apply IH, ED. }
      change (bad_point tol_abs tol_9 a d) with (differs tol_9 a d).
      assert (B : (if differs tol_9 a d then slift (int_add i 1) else sret i) (s2, g)
         = (Ok (i + if differs tol_9 a d then 1 else 0)%Z, (s2, g))).
      { destruct (differs tol_9 a d); [|rewrite Z.add_0_r; reflexivity].
        unfold slift, int_add, int_res. replace (in_int (i + 1)) with true; [reflexivity|].
        symmetry. unfold in_int, int_min, int_max. apply andb_true_intro. split; apply Z.leb_le; lia. }
      rewrite B. rewrite IH by (destruct (differs tol_9 a d); lia). cbv zeta.
      destruct (amplitudes (map lab (seq (Datatypes.S lo) n)) s2) as [[l|e|u] s3]; cbn [fst snd omap obind sret]; try reflexivity.
      unfold omap, obind. rewrite SK. cbn [failures]. do 2 f_equal. destruct (differs tol_9 a d); lia.
  Qed.
End C40.

(** ** C40 *)
(** In every arithmetic, for every process: test_2to2_amp2 evaluates the twenty points in
    order and returns the number of failures; an exception or undefined behaviour of the
    process ends the test with the same result. *)
Theorem C40_lab_frame :
  forall (num : Num) (S : Type) (set_momenta : mom num -> mom num -> mom num -> mom num -> ST S unit) (amp2 : ST S (T num))
         (m1 m2 m3 m4 Pin : T num) (data : list (T num)) (s : S) (g : stream num),
    length data = 20%nat ->
    let k := set_test_initializations m1 m2 m3 m4 Pin in
    let cost j := tD (dsub (dQ (95 # 100)) (dmul (dQ (1 # 10)) (dQ (inject_Z (Z.of_nat j))))) in
    let points := map (fun j => set_test_momenta k Pin (cost j)) (seq 0 20) in
    let r := amplitudes set_momenta amp2 points s in
    test_2to2_amp2 set_momenta amp2 m1 m2 m3 m4 Pin data (s, g) =
      (omap (fun amps => failures (1 # 1000000000) amps data) (fst r), (snd r, g)).
Proof.
  intros num S set_momenta amp2 m1 m2 m3 m4 Pin data s g HL k cost points r.
  exact (test_loop set_momenta amp2 (fun j => set_test_momenta k Pin (cost_of j)) data 20 0 0 s g ltac:(lia) ltac:(lia) ltac:(lia)).
Qed.
Print Assumptions C40_lab_frame.

Lemma failures_zero {num : Num} rel : forall (l d : list (T num)), length l = length d ->
  (failures rel l d = 0%Z <-> Forall2 (fun a x => differs rel a x = false) l d).
Proof.
  induction l as [|a l IH]; intros [|x d] HL; try discriminate; cbn [failures].
  - split; constructor.
  - injection HL as HL. pose proof (failures_range rel l d) as R. split.
    + intros H. destruct (differs rel a x) eqn:E; [lia|]. constructor; [exact E|]. apply IH; [exact HL|lia].
    + intros H. inversion H as [|? ? ? ? H1 H2]. subst. rewrite H1. apply IH in H2; [lia|exact HL].
Qed.
(** The result is 0 exactly when no point differs. *)
Theorem C40_zero_iff_all_agree :
  forall (num : Num) (rel : Q) (amps data : list (T num)), length amps = length data ->
    (failures rel amps data = 0%Z <-> Forall2 (fun a d => differs rel a d = false) amps data) /\
    (0 <= failures rel amps data <= Z.of_nat (length amps))%Z.
Proof. intros. split; [apply failures_zero; assumption|apply failures_range]. Qed.
Print Assumptions C40_zero_iff_all_agree.

(** In exact arithmetic "differs" means what it says (where the relative deviation is
    defined). *)
Theorem C40_tolerance :
  forall st eps (rel : Q) (a d : R), (0 <= Q2R rel)%R -> (a + d <> 0)%R ->
    (differs (num:=RN st eps) rel a d = false <->
       (Rabs (a - d) <= / 1000000000000000 \/ Rabs (a - d) <= Q2R rel * Rabs (a + d))%R).
Proof.
  intros st eps rel a d Hr Hn. unfold differs, lit. change (@tisinf (RN st eps) a) with false. change (@tisnan (RN st eps) a) with false.
  cbn [orb]. change (@tgtb (RN st eps)) with Rgtb. change (@tabs (RN st eps)) with Rabs. change (@tsub (RN st eps)) with Rminus.
  change (@tadd (RN st eps)) with Rplus. change (@tdiv (RN st eps)) with Rdiv.
  change (@tD (RN st eps)) with (fun x : R => x). change (@dQ (RN st eps)) with Q2R. cbv beta.
  replace (Q2R (1 # 1000000000000000)) with (/ 1000000000000000)%R by (unfold Q2R; cbn; lra).
  rewrite andb_false_iff, !Rgtb_false.
  assert (P : (0 < Rabs (a + d))%R) by (apply Rabs_pos_lt; exact Hn).
  assert (E : (Rabs (a - d) / Rabs (a + d) <= Q2R rel <-> Rabs (a - d) <= Q2R rel * Rabs (a + d))%R).
  { split; intros H.
    - apply (Rmult_le_compat_r (Rabs (a + d))) in H; [|lra]. unfold Rdiv in H. rewrite Rmult_assoc, Rinv_l, Rmult_1_r in H by lra. exact H.
    - apply (Rmult_le_reg_r (Rabs (a + d))); [lra|]. unfold Rdiv. rewrite Rmult_assoc, Rinv_l, Rmult_1_r by lra. exact H. }
  rewrite E. reflexivity.
Qed.
Print Assumptions C40_tolerance.

(** The randomised tests: ten evaluations per point, at momenta obtained from the
    laboratory momenta by random rotations and boosts. *)
Inductive turned {num : Num} (q : quad (mom num)) : quad (mom num) -> Prop :=
| turned_once g q' g' : rotate_random_test_momenta q g = (Ok q', g') -> turned q q'
| turned_again q1 g q' g' : turned q q1 -> rotate_random_test_momenta q1 g = (Ok q', g') -> turned q q'.
Definition boosted {num : Num} (q q' : quad (mom num)) : Prop :=
  exists fuel g g', boost_random_test_momenta fuel q g = (Ok q', g').
Definition turned_boosted_turned {num : Num} (q q' : quad (mom num)) : Prop :=
  exists g q1 g1 q2, rotate_random_test_momenta q g = (Ok q1, g1) /\ boosted q1 q2 /\
    exists g2 g3, rotate_random_test_momenta q2 g2 = (Ok q', g3).

(** the conclusion: from the result of a test to the points it evaluated *)
Definition explained {num : Num} {S} set_momenta amp2 (rel : Q) (moved : quad (mom num) -> quad (mom num) -> Prop)
    (points : list (quad (mom num))) (data : list (T num)) (s : S) (res : outcome Z * (S * stream num)) : Prop :=
  let points10 := flat_map (fun p => repeat p 10) points in
  let data10 := flat_map (fun d => repeat d 10) data in
  match res with
  | (Ok n, (s', _)) => exists qs amps, Forall2 moved points10 qs /\
      amplitudes set_momenta amp2 qs s = (Ok amps, s') /\ n = failures rel amps data10
  | (Exn e, (s', _)) => exists k qs, Forall2 moved (firstn k points10) qs /\
      amplitudes set_momenta amp2 qs s = (Exn e, s')
  | (UB u, (s', _)) => u = BadDistribution \/ u = LoopNotDone \/
      exists k qs, Forall2 moved (firstn k points10) qs /\
        amplitudes set_momenta amp2 qs s = (UB u, s')
  end.

Lemma map_rep {A B} (f : A -> B) x c : map f (repeat x c) = repeat (f x) c.
Proof. induction c; cbn; congruence. Qed.
Lemma flat_map_map {A B} (f : A -> B) (c : nat) l : flat_map (fun x => repeat x c) (map f l) = map f (flat_map (fun x => repeat x c) l).
Proof. induction l as [|x l IH]; [reflexivity|]. cbn [map flat_map]. rewrite map_app, IH, map_rep. reflexivity. Qed.
Lemma F2_map_l {A B D} (f : A -> B) (P : B -> D -> Prop) l l' : Forall2 (fun a d => P (f a) d) l l' -> Forall2 P (map f l) l'.
Proof. induction 1; constructor; auto. Qed.
Lemma map_nth_seq {A} (l : list A) d : map (fun j => nth j l d) (seq 0 (length l)) = l.
Proof.
  induction l as [|x l IH]; [reflexivity|]. cbn [length seq map nth]. f_equal.
  rewrite <- seq_shift, map_map. exact IH.
Qed.

Lemma explain {num : Num} {S} set_momenta amp2 rel (moved : quad (mom num) -> quad (mom num) -> Prop) (lab : nat -> quad (mom num)) data (s : S)
   (body : nat -> Z -> ST (S * stream num) Z) (g : stream num) :
  length data = 20%nat ->
  (forall j idx rest i s1 g1, (j < 20)%nat -> (length idx + 10 <= 1000)%nat ->
     Inv set_momenta amp2 tol_abs rel data (tZ 0) (fun j q => moved (lab j) q) s idx i s1 ->
     Step set_momenta amp2 tol_abs rel data (tZ 0) (fun j q => moved (lab j) q) s
       (idx ++ repeat j 10) ((idx ++ repeat j 10) ++ rest) (fun z => z) (fun _ => True) (body j i (s1, g1))) ->
  explained set_momenta amp2 rel moved (map lab (seq 0 20)) data s (sfor 0 20 body 0%Z (s, g)).
Proof.
  intros HL HB.
  pose proof (outer_loop set_momenta amp2 tol_abs rel data (tZ 0) (fun j q => moved (lab j) q) s 10 body 20
    ltac:(intros; apply HB; [lia|assumption|assumption]) 0 [] 0%Z s g ltac:(lia) ltac:(cbn; lia) (Inv_start _ _ _ _ _ _ _ _)) as H.
  cbv zeta in H. rewrite app_nil_l in H. unfold explained. rewrite flat_map_map.
  set (idx := flat_map (fun j => repeat j 10) (seq 0 20)) in *.
  assert (ED : map (fun j => nth j data (tZ 0)) idx = flat_map (fun d => repeat d 10) data).
  { unfold idx. rewrite <- HL at 1. rewrite <- flat_map_map. rewrite map_nth_seq. reflexivity. }
  unfold Step in H. destruct (sfor 0 20 body 0%Z (s, g)) as [[n|e|u] [s' g']]; cbn [fst snd] in H.
  - destruct H as [(qs & HF & (l & HSw & HLd & HC & HQ)) _]. exists qs, l. split; [apply F2_map_l; exact HF|].
    split; [exact HSw|]. rewrite failures_count, <- ED. exact HC.
  - destruct H as (qs & i1 & rest & E & HF & HSw). exists (length i1), qs. split; [|exact HSw].
    rewrite firstn_map, E, firstn_app, Nat.sub_diag, firstn_O, app_nil_r, firstn_all. apply F2_map_l. exact HF.
  - destruct H as (qs & i1 & rest & E & HF & [H|[H|HSw]]); auto. right. right. exists (length i1), qs. split; [|exact HSw].
    rewrite firstn_map, E, firstn_app, Nat.sub_diag, firstn_O, app_nil_r, firstn_all. apply F2_map_l. exact HF.
Qed.

Lemma sret_r {S A} (f : ST S A) s : (do x <- f; sret x) s = f s.
Proof. unfold sbind, sret. destruct (f s) as [[a|e|u] s']; reflexivity. Qed.

Theorem C40_randomised :
  forall (num : Num) (S : Type) (set_momenta : mom num -> mom num -> mom num -> mom num -> ST S unit) (amp2 : ST S (T num))
         (m1 m2 m3 m4 Pin : T num) (data : list (T num)) (s : S) (g : stream num) (fuel : nat),
    length data = 20%nat ->
    let k := set_test_initializations m1 m2 m3 m4 Pin in
    let cost j := tD (dsub (dQ (95 # 100)) (dmul (dQ (1 # 10)) (dQ (inject_Z (Z.of_nat j))))) in
    let points := map (fun j => set_test_momenta k Pin (cost j)) (seq 0 20) in
    explained set_momenta amp2 (1 # 1000000000) turned points data s
      (test_2to2_amp2_rotations set_momenta amp2 m1 m2 m3 m4 Pin data (s, g)) /\
    explained set_momenta amp2 (1 # 100000000) boosted points data s
      (test_2to2_amp2_boosts set_momenta amp2 fuel m1 m2 m3 m4 Pin data (s, g)) /\
    explained set_momenta amp2 (1 # 100000000) turned_boosted_turned points data s
      (test_2to2_amp2_boosts_and_rotations set_momenta amp2 fuel m1 m2 m3 m4 Pin data (s, g)).
Proof.
  intros num S set_momenta amp2 m1 m2 m3 m4 Pin data s g fuel HL k cost points.
  set (lab := fun j => set_test_momenta k Pin (cost_of j)).
  split; [|split].
  - unfold test_2to2_amp2_rotations. apply (explain set_momenta amp2 tol_9 turned lab data s _ g HL).
    intros j idx rest i s1 g1 Hj HI HInv.
    pose proof (inner_loop set_momenta amp2 tol_abs tol_9 data (tZ 0) (fun j q => turned (lab j) q) s
      (fun iq : Z * quad (mom num) => fst iq) (fun iq => snd iq = lab j \/ turned (lab j) (snd iq)) j
      (fun iq => do q <- on_rng (rotate_random_test_momenta (snd iq));
                 do i' <- tally set_momenta amp2 tol_abs tol_9 data j q (fst iq); sret (i', q)) 10) as IL.
    assert (HB : forall idx0 rest0 (a : Z * quad (mom num)) (s2 : S) (g0 : stream num),
       (length idx0 < 1000)%nat -> Inv set_momenta amp2 tol_abs tol_9 data (tZ 0) (fun j q => turned (lab j) q) s idx0 (fst a) s2 ->
       (snd a = lab j \/ turned (lab j) (snd a)) ->
       Step set_momenta amp2 tol_abs tol_9 data (tZ 0) (fun j q => turned (lab j) q) s (idx0 ++ [j]) ((idx0 ++ [j]) ++ rest0)
         (fun iq => fst iq) (fun iq => snd iq = lab j \/ turned (lab j) (snd iq))
         ((do q <- on_rng (rotate_random_test_momenta (snd a));
           do i' <- tally set_momenta amp2 tol_abs tol_9 data j q (fst a); sret (i', q)) (s2, g0))).
    { intros idx0 rest0 [i0 q0] s2 g0 HL0 HI0 HG0. cbn [fst snd] in *.
      apply (point_step set_momenta amp2 tol_abs tol_9 data (tZ 0) (fun j q => turned (lab j) q) s idx0 rest0 j i0 s2 g0
               (rotate_random_test_momenta q0) (fun iq => fst iq) (fun iq => snd iq = lab j \/ turned (lab j) (snd iq)) (fun i q => (i, q)));
        auto; try lia.
      - intros q g' E. assert (turned (lab j) q).
        { destruct HG0 as [->|HG0]; [eapply turned_once; exact E|eapply turned_again; eassumption]. }
        split; [assumption|]. intros i1. right. assumption.
      - intros e g' E. pose proof (rotate_gen_cases q0 g0) as C. rewrite E in C. exact C.
      - intros u g' E. pose proof (rotate_gen_cases q0 g0) as C. rewrite E in C. auto. }
    specialize (IL HB 0%nat idx rest (i, lab j) s1 g1 HI HInv (or_introl eq_refl)).
    unfold sbind at 1. unfold Step in *.
    change (set_test_momenta (set_test_initializations m1 m2 m3 m4 Pin) Pin (cost_of j)) with (lab j).
    match goal with |- context [sfor 0 10 ?b (i, lab j) (s1, g1)] => set (X := sfor 0 10 b (i, lab j) (s1, g1)) in * end.
    clearbody X.
    destruct X as [[[i' q']|e|u] [s2 g2]]; cbn [fst snd sret] in *.
    + split; [apply IL|exact I].
    + exact IL.
    + exact IL.
  - unfold test_2to2_amp2_boosts. apply (explain set_momenta amp2 tol_8 boosted lab data s _ g HL).
    intros j idx rest i s1 g1 Hj HI HInv.
    apply (inner_loop set_momenta amp2 tol_abs tol_8 data (tZ 0) (fun j q => boosted (lab j) q) s
      (fun z : Z => z) (fun _ => True) j
      (fun i => do q <- on_rng (boost_random_test_momenta fuel (lab j));
                tally set_momenta amp2 tol_abs tol_8 data j q i) 10); auto.
    intros idx0 rest0 i0 s2 g0 HL0 HI0 _.
    pose proof (point_step set_momenta amp2 tol_abs tol_8 data (tZ 0) (fun j q => boosted (lab j) q) s idx0 rest0 j i0 s2 g0
               (boost_random_test_momenta fuel (lab j)) (fun z : Z => z) (fun _ => True) (fun i _ => i) HI0 ltac:(lia) HL0 ltac:(auto)) as PS.
    assert (EQ : forall x, (do q <- on_rng (boost_random_test_momenta fuel (lab j)); tally set_momenta amp2 tol_abs tol_8 data j q i0) x
       = (do q <- on_rng (boost_random_test_momenta fuel (lab j)); do i' <- tally set_momenta amp2 tol_abs tol_8 data j q i0; sret i') x).
    { intros x. unfold sbind at 1 2. destruct (on_rng (boost_random_test_momenta fuel (lab j)) x) as [[q|e|u] x']; auto. rewrite sret_r. reflexivity. }
    rewrite EQ. apply PS.
    + intros q g' E. split; [exists fuel, g0, g'; exact E|auto].
    + intros e g' E. pose proof (boost_gen_cases fuel (lab j) g0) as C. rewrite E in C. exact C.
    + intros u g' E. pose proof (boost_gen_cases fuel (lab j) g0) as C. rewrite E in C. exact C.
  - unfold test_2to2_amp2_boosts_and_rotations. apply (explain set_momenta amp2 tol_8 turned_boosted_turned lab data s _ g HL).
    intros j idx rest i s1 g1 Hj HI HInv.
    set (gen := do q1 <- rotate_random_test_momenta (lab j);
                do q2 <- boost_random_test_momenta fuel q1; rotate_random_test_momenta q2).
    apply (inner_loop set_momenta amp2 tol_abs tol_8 data (tZ 0) (fun j q => turned_boosted_turned (lab j) q) s
      (fun z : Z => z) (fun _ => True) j
      (fun i => do q1 <- on_rng (rotate_random_test_momenta (lab j));
                do q2 <- on_rng (boost_random_test_momenta fuel q1);
                do q3 <- on_rng (rotate_random_test_momenta q2);
                tally set_momenta amp2 tol_abs tol_8 data j q3 i) 10); auto.
    intros idx0 rest0 i0 s2 g0 HL0 HI0 _.
    pose proof (point_step set_momenta amp2 tol_abs tol_8 data (tZ 0) (fun j q => turned_boosted_turned (lab j) q) s idx0 rest0 j i0 s2 g0
               gen (fun z : Z => z) (fun _ => True) (fun i _ => i) HI0 ltac:(lia) HL0 ltac:(auto)) as PS.
    assert (EQ : forall x, (do q1 <- on_rng (rotate_random_test_momenta (lab j));
                do q2 <- on_rng (boost_random_test_momenta fuel q1);
                do q3 <- on_rng (rotate_random_test_momenta q2);
                tally set_momenta amp2 tol_abs tol_8 data j q3 i0) x
       = (do q <- on_rng gen; do i' <- tally set_momenta amp2 tol_abs tol_8 data j q i0; sret i') x).
    { intros [x1 x2]. unfold gen, sbind, on_rng. cbn [fst snd].
      destruct (rotate_random_test_momenta (lab j) x2) as [[q1|e|u] x3]; auto. cbn [fst snd].
      destruct (boost_random_test_momenta fuel q1 x3) as [[q2|e|u] x4]; auto. cbn [fst snd].
      destruct (rotate_random_test_momenta q2 x4) as [[q3|e|u] x5]; auto.
      destruct (tally set_momenta amp2 tol_abs tol_8 data j q3 i0 (x1, x5)) as [[z|e|u] x6]; reflexivity. }
    rewrite EQ. apply PS.
    + intros q g' E. unfold gen in E. apply sbind_Ok_inv in E. destruct E as (q1 & g3 & E1 & E). apply sbind_Ok_inv in E.
      destruct E as (q2 & g4 & E2 & E3). split; [|auto]. exists g0, q1, g3, q2. split; [exact E1|].
      split; [exists fuel, g3, g4; exact E2|]. exists g4, g'. exact E3.
    + intros e g' E. unfold gen, sbind in E. pose proof (rotate_gen_cases (lab j) g0) as C1.
      destruct (rotate_random_test_momenta (lab j) g0) as [[q1|e1|u1] g3]; try discriminate; auto.
      pose proof (boost_gen_cases fuel q1 g3) as C2. destruct (boost_random_test_momenta fuel q1 g3) as [[q2|e2|u2] g4]; try discriminate; auto.
      pose proof (rotate_gen_cases q2 g4) as C3. rewrite E in C3. exact C3.
    + intros u g' E. unfold gen, sbind in E. pose proof (rotate_gen_cases (lab j) g0) as C1.
      destruct (rotate_random_test_momenta (lab j) g0) as [[q1|e1|u1] g3]; try discriminate; [|injection E as <- _; auto].
      pose proof (boost_gen_cases fuel q1 g3) as C2. destruct (boost_random_test_momenta fuel q1 g3) as [[q2|e2|u2] g4]; try discriminate; [|injection E as <- _; auto].
      pose proof (rotate_gen_cases q2 g4) as C3. rewrite E in C3. auto.
Qed.
Print Assumptions C40_randomised.

(** A process whose amplitude is 1 everywhere, against data that are 1 except the first. *)
Example C40_example : forall g,
  fst (test_2to2_amp2 (num:=RN true 0) (S:=unit) (fun _ _ _ _ => sret tt) (sret 1%R) 0%R 0%R 0%R 0%R 1%R (2%R :: repeat 1%R 19) (tt, g)) = Ok 1%Z.
Proof.
  intros g. rewrite C40_lab_frame by reflexivity. cbn [map seq amplitudes sbind sret fst omap obind].
  assert (A : differs (num:=RN true 0) (1 # 1000000000) 1%R 2%R = true).
  { destruct (differs (num:=RN true 0) (1 # 1000000000) 1%R 2%R) eqn:E; [reflexivity|exfalso].
    apply C40_tolerance in E; [|unfold Q2R; cbn; lra|lra].
    replace (1 - 2)%R with (- (1))%R in E by ring. rewrite Rabs_Ropp, Rabs_R1 in E.
    rewrite (Rabs_pos_eq (1 + 2)) in E by lra. unfold Q2R in E. cbn in E. lra. }
  assert (B : differs (num:=RN true 0) (1 # 1000000000) 1%R 1%R = false).
  { apply C40_tolerance; [unfold Q2R; cbn; lra|lra|]. left. rewrite Rminus_diag_eq, Rabs_R0 by reflexivity. lra. }
  f_equal. cbn [failures repeat]. rewrite A, B. reflexivity.
Qed.

(** ** C41 *)
Lemma amplitudes_base {num : Num} {S} amp2 qs (s : S) : qs <> [] ->
  amplitudes (base_set_momenta (num:=num)) amp2 qs s = (Exn NotImplemented, s).
Proof. destruct qs as [|q qs]; [congruence|]. reflexivity. Qed.
Definition refused {S X} (s : S) (r : outcome Z * (S * X)) : Prop :=
  match r with
  | (Ok _, _) => False
  | (Exn e, (s', _)) => e = NotImplemented /\ s' = s
  | (UB u, _) => u = BadDistribution \/ u = LoopNotDone
  end.
Lemma explained_base {num : Num} {S} amp2 rel moved p ps data (s : S) r :
  explained (num:=num) base_set_momenta amp2 rel moved (p :: ps) data s r -> refused s r.
Proof.
  unfold explained, refused. destruct r as [[n|e|u] [s' g']].
  - intros (qs & l & F & E & _). destruct qs as [|q qs]; [inversion F|]. rewrite amplitudes_base in E by discriminate. discriminate.
  - intros (k & qs & F & E). destruct qs as [|q qs]; [discriminate|]. rewrite amplitudes_base in E by discriminate. injection E; auto.
  - intros [H|[H|(k & qs & F & E)]]; auto. destruct qs as [|q qs]; [discriminate|]. rewrite amplitudes_base in E by discriminate. discriminate.
Qed.
(** A process that does not override set_momenta: whatever the amplitude, the masses and
    the data, no test returns a number.  All throw NotImplemented with the process
    untouched (in any arithmetic; the randomised ones unless the random generator is used
    outside its domain or its rejection loop does not end). *)
Theorem C41_not_implemented :
  forall (num : Num) (S : Type) (amp2 : ST S (T num)) (m1 m2 m3 m4 Pin : T num) (data : list (T num)) (s : S) (g : stream num) fuel,
    length data = 20%nat ->
    (forall p1 p2 p3 p4 (s : S), base_set_momenta (num:=num) p1 p2 p3 p4 s = (Exn NotImplemented, s)) /\
    test_2to2_amp2 base_set_momenta amp2 m1 m2 m3 m4 Pin data (s, g) = (Exn NotImplemented, (s, g)) /\
    score_2to2_amp2 base_set_momenta amp2 m1 m2 m3 m4 Pin data (s, g) = (Exn NotImplemented, (s, g)) /\
    refused s (test_2to2_amp2_rotations base_set_momenta amp2 m1 m2 m3 m4 Pin data (s, g)) /\
    refused s (test_2to2_amp2_boosts base_set_momenta amp2 fuel m1 m2 m3 m4 Pin data (s, g)) /\
    refused s (test_2to2_amp2_boosts_and_rotations base_set_momenta amp2 fuel m1 m2 m3 m4 Pin data (s, g)).
Proof.
  intros num S amp2 m1 m2 m3 m4 Pin data s g fuel HL. split; [reflexivity|]. split; [reflexivity|]. split; [reflexivity|].
  destruct (C40_randomised num S base_set_momenta amp2 m1 m2 m3 m4 Pin data s g fuel HL) as (A & B & C).
  split; [exact (explained_base _ _ _ _ _ _ _ _ A)|]. split; [exact (explained_base _ _ _ _ _ _ _ _ B)|exact (explained_base _ _ _ _ _ _ _ _ C)].
Qed.
Print Assumptions C41_not_implemented.
Example C41_example : forall g,
  fst (test_2to2_amp2_rotations (num:=RN true 0) (S:=unit) base_set_momenta (sret 1%R) 0%R 0%R 0%R 0%R 1%R (repeat 1%R 20) (tt, g)) = Exn NotImplemented.
Proof.
  intros g. unfold test_2to2_amp2_rotations. cbn [sfor]. unfold sbind at 1. unfold sbind at 1. unfold sbind at 1. unfold sbind at 1.
  unfold rotate_random_test_momenta at 1, on_rng, sbind at 1 2 3 4, choose_random_ldouble at 1 2 3 4.
  change (@tgeb (RN true 0)) with Rgeb. change (@tZ (RN true 0)) with IZR.
  rewrite (proj2 (Rgeb_true 1000 0)) by lra.
  match goal with |- context [Rgeb ?x 0] => rewrite (proj2 (Rgeb_true x 0)) end; [reflexivity|].
  change (@tD (RN true 0)) with (fun x : R => x). change (@dmul (RN true 0)) with Rmult. change (@dQ (RN true 0)) with Q2R. cbv beta.
  unfold Q2R. cbn [QArith_base.Qnum QArith_base.Qden]. apply Rle_ge. apply Rmult_le_pos; apply Rmult_le_pos; try lra; left; apply Rinv_0_lt_compat; lra.
Qed.

(** ** C52 *)
Definition quad_list {A} (q : quad A) : list A := [q_1 q; q_2 q; q_3 q; q_4 q].
(** The same phase space point in another frame. *)
Definition same_kinematics (q q' : quad (vec4 R)) : Prop :=
  (forall i j pi pj pi' pj',
     nth_error (quad_list q) i = Some pi -> nth_error (quad_list q) j = Some pj ->
     nth_error (quad_list q') i = Some pi' -> nth_error (quad_list q') j = Some pj' ->
     mdot pi' pj' = mdot pi pj) /\
  (plus4 (q_1 q) (q_2 q) = plus4 (q_3 q) (q_4 q) -> plus4 (q_1 q') (q_2 q') = plus4 (q_3 q') (q_4 q')) /\
  (Forall (fun p => 0 <= mdot p p /\ 0 < v_0 p)%R (quad_list q) -> Forall (fun p => 0 <= mdot p p /\ 0 < v_0 p)%R (quad_list q')).
Lemma same_kin (f : vec4 R -> vec4 R) q :
  (forall p p', mdot (f p) (f p') = mdot p p') ->
  (forall p p', f (plus4 p p') = plus4 (f p) (f p')) ->
  (forall p, 0 <= mdot p p -> 0 < v_0 p -> 0 < v_0 (f p))%R ->
  same_kinematics q (qmap f q).
Proof.
  intros HM HA HE. split; [|split].
  - intros i j pi pj pi' pj' Hi Hj Hi' Hj'.
    assert (E : quad_list (qmap f q) = map f (quad_list q)) by reflexivity. rewrite E in *.
    rewrite nth_error_map in Hi', Hj'. rewrite Hi in Hi'. rewrite Hj in Hj'. injection Hi' as <-. injection Hj' as <-. apply HM.
  - intros H. cbn [qmap q_1 q_2 q_3 q_4]. rewrite <- !HA, H. reflexivity.
  - intros H. change (quad_list (qmap f q)) with (map f (quad_list q)). apply Forall_map. eapply Forall_impl; [|exact H].
    intros p [H1 H2]. split; [rewrite HM; exact H1|apply HE; assumption].
Qed.
(** Every point the randomised tests evaluate is the laboratory point in another frame,
    unless the generator delivers a zero axis or a zero velocity; the velocities stay
    below 0.99. *)
Theorem C52_random_frames :
  forall st eps (q q' : quad (vec4 R)) (g g' : stream (RN st eps)),
    (rotate_random_test_momenta (num:=RN st eps) q g = (Ok q', g') ->
       ~ (g 0%nat = 0 /\ g 1%nat = 0 /\ g 2%nat = 0)%R -> same_kinematics q q') /\
    (forall fuel, boost_random_test_momenta (num:=RN st eps) fuel q g = (Ok q', g') ->
       exists v, (sqrt (x_0 v * x_0 v + x_1 v * x_1 v + x_2 v * x_2 v) < 99 / 100)%R /\
         (~ (x_0 v = 0 /\ x_1 v = 0 /\ x_2 v = 0)%R -> same_kinematics q q')).
Proof.
  intros st eps q q' g g'. split.
  - unfold rotate_random_test_momenta, choose_random_ldouble, sbind, sret.
    change (T (RN st eps)) with R in *.
    destruct (tgeb _ _); [|discriminate]. destruct (tgeb _ _); [|discriminate]. intros [= <- <-] Hn.
    set (um := sqrt (g 0%nat * g 0%nat + g 1%nat * g 1%nat + g 2%nat * g 2%nat)%R).
    assert (P : (0 < g 0%nat * g 0%nat + g 1%nat * g 1%nat + g 2%nat * g 2%nat)%R).
    { revert Hn. generalize (g 0%nat) (g 1%nat) (g 2%nat). change (T (RN st eps)) with R. intros a b c Hn.
      pose proof (Rle_0_sqr a). pose proof (Rle_0_sqr b). pose proof (Rle_0_sqr c). unfold Rsqr in *.
      destruct (Rle_lt_dec (a * a + b * b + c * c) 0) as [L|L]; [|exact L].
      exfalso. apply Hn. split; [|split]; apply Rsqr_0_uniq; unfold Rsqr; lra. }
    assert (U : (um * um = g 0%nat * g 0%nat + g 1%nat * g 1%nat + g 2%nat * g 2%nat)%R) by (apply sqrt_sqrt; lra).
    assert (UP : (0 < um)%R) by (apply sqrt_lt_R0; exact P).
    match goal with |- same_kinematics q (qmap (fun p => rotate_momentum p ?u ?a) q) => set (uu := u); set (aa := a) end.
    assert (HU : unit3 uu).
    { unfold unit3, uu. cbn [x_0 x_1 x_2].
      change (@tsqrt (RN st eps)) with sqrt. change (@tadd (RN st eps)) with Rplus. change (@tmul (RN st eps)) with Rmult. change (@tdiv (RN st eps)) with Rdiv.
      fold um. replace (g 0%nat / um * (g 0%nat / um) + g 1%nat / um * (g 1%nat / um) + g 2%nat / um * (g 2%nat / um))%R
        with ((g 0%nat * g 0%nat + g 1%nat * g 1%nat + g 2%nat * g 2%nat) / (um * um))%R by (field; lra).
      rewrite U. field. lra. }
    apply same_kin.
    + intros p p'. apply (C26_rotation_preserves st eps uu aa HU p p').
    + intros p p'. apply (C26_rotation_preserves st eps uu aa HU p p').
    + intros p _ H. destruct (C26_rotation_preserves st eps uu aa HU p p) as [E _]. exact (eq_ind_r (fun x => (0 < x)%R) H E).
  - intros fuel. unfold boost_random_test_momenta. intros E. apply sbind_Ok_inv in E. destruct E as (v & g1 & E & F).
    injection F as <- <-. exists v.
    assert (B : (sqrt (x_0 v * x_0 v + x_1 v * x_1 v + x_2 v * x_2 v) < 99 / 100)%R).
    { revert E. assert (K : forall fuel v0 vm g, (vm < 99 / 100 -> vm = sqrt (x_0 v0 * x_0 v0 + x_1 v0 * x_1 v0 + x_2 v0 * x_2 v0))%R ->
         boost_draw (num:=RN st eps) fuel v0 vm g = (Ok v, g1) -> (sqrt (x_0 v * x_0 v + x_1 v * x_1 v + x_2 v * x_2 v) < 99 / 100)%R).
      { clear. assert (L : lit (num:=RN st eps) (99 # 100) = (99 / 100)%R) by (unfold lit; cbn; unfold Q2R; cbn; lra).
        induction fuel as [|fuel IH]; intros v0 vm g H; cbn [boost_draw]; rewrite L; change (@tgeb (RN st eps)) with Rgeb.
        - destruct (Rgeb vm (99 / 100)) eqn:EV; [discriminate|]. intros [= <- <-]. apply Rgeb_false in EV. exact (eq_ind _ (fun x => (x < 99 / 100)%R) EV _ (H EV)).
        - destruct (Rgeb vm (99 / 100)) eqn:EV.
          + intros E. apply sbind_Ok_inv in E. destruct E as (a & g2 & _ & E). apply sbind_Ok_inv in E. destruct E as (b & g3 & _ & E).
            apply sbind_Ok_inv in E. destruct E as (c & g4 & _ & E). apply IH in E; [exact E|]. intros _. reflexivity.
          + intros [= <- <-]. apply Rgeb_false in EV. exact (eq_ind _ (fun x => (x < 99 / 100)%R) EV _ (H EV)). }
      apply K. cbn. lra. }
    split; [exact B|]. intros Hn.
    assert (V : (0 < x_0 v * x_0 v + x_1 v * x_1 v + x_2 v * x_2 v < 1)%R).
    { clear - B Hn. destruct v as [a b c]. cbn [x_0 x_1 x_2] in *. change (T (RN st eps)) with R in *.
      pose proof (Rle_0_sqr a). pose proof (Rle_0_sqr b). pose proof (Rle_0_sqr c). unfold Rsqr in *. split.
      - destruct (Rle_lt_dec (a * a + b * b + c * c) 0) as [L|L]; [|exact L].
        exfalso. apply Hn. split; [|split]; apply Rsqr_0_uniq; unfold Rsqr; lra.
      - apply sqrt_lt_0_alt. rewrite sqrt_1. lra. }
    apply (same_kin (fun p => boost_momentum (num:=RN st eps) p v)).
    + intros p p'. apply (C28_boost_preserves st eps v V p p').
    + intros p p'. apply (C28_boost_preserves st eps v V p p').
    + intros p. apply (C28_boost_preserves st eps v V p p).
Qed.
Print Assumptions C52_random_frames.

(** ** C53 *)
(** the relative deviation of a point that counts, else nothing *)
Definition deviates {num : Num} (a d : T num) : bool :=
  tisinf a || tisnan a ||
  (tgtb (tabs (a - d)%ld) (lit (1 # 100000000000000000000)) && tgtb (tabs (a - d) / tabs (a + d))%ld (lit (1 # 1000000000))).
Fixpoint total_deviation {num : Num} (acc : T num) (amps data : list (T num)) : T num :=
  match amps, data with
  | a :: amps', d :: data' =>
      total_deviation (if deviates a d then acc + tabs (a - d) / tabs (a + d) else acc)%ld amps' data'
  | _, _ => acc
  end.
Lemma score_loop {num : Num} {S} set_momenta amp2 (lab : nat -> quad (mom num)) data n : forall lo acc (s : S) g,
  (lo + n <= length data)%nat ->
  let r := amplitudes set_momenta amp2 (map lab (seq lo n)) s in
  sfor lo n (fun j score =>
      do a <- amp_at set_momenta amp2 (lab j);
      do d <- slift (arr_get data j);
      if bad_point tol_20 tol_9 a d then sret (score + tabs (a - d) / tabs (a + d))%ld else sret score) acc (s, g) =
    (omap (fun l => total_deviation acc l (skipn lo data)) (fst r), (snd r, g)).
Proof.
  induction n as [|n IH]; intros lo acc s g HL; cbn [seq map amplitudes sfor].
  - cbn. unfold sret. reflexivity.
  - cbv zeta. unfold sbind at 1. unfold sbind at 1. rewrite amp_at_proc. unfold sbind.
    destruct (set_momenta (q_1 (lab lo)) (q_2 (lab lo)) (q_3 (lab lo)) (q_4 (lab lo)) s) as [[[]|e|u] s1]; cbn [fst snd]; try reflexivity.
    destruct (amp2 s1) as [[a|e|u] s2]; cbn [fst snd]; try reflexivity.
    unfold slift at 1, arr_get.
    destruct (nth_error data lo) as [d|] eqn:ED; [|apply nth_error_None in ED; lia].
    assert (SK : skipn lo data = d :: skipn (Datatypes.S lo) data).
    { clear - ED. revert lo ED. induction data as [|x l IH]; intros [|lo] ED; try discriminate.
      - injection ED as ->. reflexivity.
      - cbn [skipn]. apply IH, ED. }
    change (bad_point tol_20 tol_9 a d) with (deviates a d).
    assert (B : (if deviates a d then sret (acc + tabs (a - d) / tabs (a + d))%ld else sret acc) (s2, g)
       = (Ok (if deviates a d then acc + tabs (a - d) / tabs (a + d) else acc)%ld, (s2, g))).
    { destruct (deviates a d); reflexivity. }
    rewrite B. etransitivity; [apply IH; lia|]. cbv zeta.
    destruct (amplitudes set_momenta amp2 (map lab (seq (Datatypes.S lo) n)) s2) as [[l|e|u] s3]; cbn [fst snd omap obind sret]; try reflexivity.
    unfold omap, obind. rewrite SK. reflexivity.
Qed.
(** score_2to2_amp2 adds up the relative deviations of the points that deviate; in exact
    arithmetic the score is never negative, and 0 exactly when no point deviates. *)
Theorem C53_score :
  (forall (num : Num) (S : Type) (set_momenta : mom num -> mom num -> mom num -> mom num -> ST S unit) (amp2 : ST S (T num))
         (m1 m2 m3 m4 Pin : T num) (data : list (T num)) (s : S) (g : stream num),
    length data = 20%nat ->
    let k := set_test_initializations m1 m2 m3 m4 Pin in
    let cost j := tD (dsub (dQ (95 # 100)) (dmul (dQ (1 # 10)) (dQ (inject_Z (Z.of_nat j))))) in
    let points := map (fun j => set_test_momenta k Pin (cost j)) (seq 0 20) in
    let r := amplitudes set_momenta amp2 points s in
    score_2to2_amp2 set_momenta amp2 m1 m2 m3 m4 Pin data (s, g) =
      (omap (fun amps => total_deviation (tZ 0) amps data) (fst r), (snd r, g))) /\
  (forall st eps (amps data : list R), length amps = length data ->
     let score := total_deviation (num:=RN st eps) 0%R amps data in
     (0 <= score)%R /\
     (score = 0%R <-> Forall2 (fun a d => deviates (num:=RN st eps) a d = false) amps data)).
Proof.
  split.
  - intros num S set_momenta amp2 m1 m2 m3 m4 Pin data s g HL k cost points r.
    exact (score_loop set_momenta amp2 (fun j => set_test_momenta k Pin (cost_of j)) data 20 0 (tZ 0) s g ltac:(lia)).
  - intros st eps.
    assert (G : forall amps data (acc : R), length amps = length data -> (0 <= acc)%R ->
       (acc <= total_deviation (num:=RN st eps) acc amps data)%R /\
       (total_deviation (num:=RN st eps) acc amps data = acc <-> Forall2 (fun a d => deviates (num:=RN st eps) a d = false) amps data)).
    { induction amps as [|a amps IH]; intros [|d data] acc HL H0; try discriminate; cbn [total_deviation].
      - split; [lra|]. split; [constructor|reflexivity].
      - injection HL as HL. change (@tadd (RN st eps)) with Rplus. change (@tdiv (RN st eps)) with Rdiv. change (@tabs (RN st eps)) with Rabs. change (@tsub (RN st eps)) with Rminus.
        destruct (deviates (num:=RN st eps) a d) eqn:ED.
        + assert (P : (0 < Rabs (a - d) / Rabs (a + d))%R).
          { unfold deviates in ED. change (@tisinf (RN st eps) a) with false in ED. change (@tisnan (RN st eps) a) with false in ED.
            cbn [orb] in ED. apply andb_prop in ED. destruct ED as [_ ED]. change (@tgtb (RN st eps)) with Rgtb in ED. apply Rgtb_true in ED.
            change (Rabs (a - d) / Rabs (a + d) > Q2R (1 # 1000000000))%R in ED. unfold Q2R in ED. cbn [QArith_base.Qnum QArith_base.Qden] in ED. lra. }
          destruct (IH data (acc + Rabs (a - d) / Rabs (a + d))%R HL ltac:(lra)) as [I1 I2]. split; [lra|]. split.
          * intros E. lra.
          * intros F. inversion F. congruence.
        + destruct (IH data acc HL H0) as [I1 I2]. split; [exact I1|]. rewrite I2. split.
          * intros F. constructor; assumption.
          * intros F. inversion F. assumption. }
    intros amps data HL score. destruct (G amps data 0%R HL (Rle_refl 0)) as [G1 G2]. split; [exact G1|exact G2].
Qed.
Print Assumptions C53_score.
Example C53_example : total_deviation (num:=RN true 0) 0%R [1%R; 2%R] [1%R; 4%R] = (1 / 3)%R.
Proof.
  assert (A : deviates (num:=RN true 0) 2%R 4%R = true).
  { unfold deviates, lit. change (@tisinf (RN true 0) 2%R) with false. change (@tisnan (RN true 0) 2%R) with false. cbn [orb].
    change (@tgtb (RN true 0)) with Rgtb. change (@tdiv (RN true 0)) with Rdiv. change (@tabs (RN true 0)) with Rabs. change (@tsub (RN true 0)) with Rminus. change (@tadd (RN true 0)) with Rplus.
    change (@tD (RN true 0)) with (fun x : R => x). change (@dQ (RN true 0)) with Q2R. cbv beta. unfold Q2R. cbn [QArith_base.Qnum QArith_base.Qden].
    replace (2 - 4)%R with (- (2))%R by ring. rewrite Rabs_Ropp, !Rabs_pos_eq by lra.
    apply andb_true_intro. split; apply Rgtb_true; lra. }
  assert (B : deviates (num:=RN true 0) 1%R 1%R = false).
  { unfold deviates. change (@tisinf (RN true 0) 1%R) with false. change (@tisnan (RN true 0) 1%R) with false. cbn [orb].
    apply andb_false_intro1. change (@tgtb (RN true 0)) with Rgtb. apply Rgtb_false.
    change (@tabs (RN true 0)) with Rabs. change (@tsub (RN true 0)) with Rminus. rewrite Rminus_diag_eq, Rabs_R0 by reflexivity.
    unfold lit. cbn. unfold Q2R. cbn. lra. }
  cbn [total_deviation]. rewrite A, B.
  change (@tdiv (RN true 0)) with Rdiv. change (@tabs (RN true 0)) with Rabs. change (@tsub (RN true 0)) with Rminus. change (@tadd (RN true 0)) with Rplus.
  replace (2 - 4)%R with (- (2))%R by ring. rewrite Rabs_Ropp, !Rabs_pos_eq by lra. lra.
Qed.
