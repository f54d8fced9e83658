(** * The harness returns

    A process that answers at all points of a kind: the four tests of Harness.v return a
    count between 0 and 200, or the loop of boost_random_test_momenta has not ended. *)
From Coq Require Import Reals Lra QArith Lia.
From Verif Require Import Base Scalar Integers Utilities Harness Particle RealNum ParticleReal PropsUtil PropsHarness.
Close Scope Q_scope.
Open Scope st_scope.

Definition in_time {A S : Type} (late : Prop) (P : A -> S -> Prop) (x : outcome A * S) : Prop :=
  match x with (Ok a, s) => P a s | (UB LoopNotDone, _) => late | _ => False end.
Lemma in_time_bind {A B S : Type} (f : ST S A) (k : A -> ST S B) late s P Q :
  in_time late P (f s) -> (forall a s', P a s' -> in_time late Q (k a s')) -> in_time late Q ((do a <- f; k a) s).
Proof. unfold sbind. destruct (f s) as [[a|e|u] s']; cbn; auto. Qed.
Lemma in_time_weaken {A S : Type} late (P Q : A -> S -> Prop) x : in_time late P x -> (forall a s, P a s -> Q a s) -> in_time late Q x.
Proof. destruct x as [[a|e|[]] s]; cbn; auto. Qed.
Lemma in_time_for {A S : Type} (body : nat -> A -> ST S A) late (P : nat -> A -> S -> Prop) n : forall lo a s,
  P lo a s -> (forall j a s, (lo <= j < lo + n)%nat -> P j a s -> in_time late (P (Datatypes.S j)) (body j a s)) ->
  in_time late (P (lo + n)%nat) (sfor lo n body a s).
Proof.
  induction n as [|n IH]; intros lo a s H HB; cbn [sfor].
  - rewrite Nat.add_0_r. exact H.
  - rewrite <- Nat.add_succ_comm. eapply in_time_bind; [apply HB; [lia|exact H]|]. cbn beta. intros a' s' H'.
    apply IH; [exact H'|]. intros; apply HB; [lia|assumption].
Qed.
Lemma sfor_cong {A S : Type} (f g : nat -> A -> ST S A) n : (forall j a s, f j a s = g j a s) -> forall lo a s, sfor lo n f a s = sfor lo n g a s.
Proof.
  intros H. induction n as [|n IH]; intros lo a s; cbn [sfor]; [reflexivity|]. unfold sbind. rewrite H.
  destruct (g lo a s) as [[x|e|u] s']; auto.
Qed.

Section Harness.
  Context {num : Num} {S : Type}.
  Variable late : Prop.
  Variable set_momenta : mom num -> mom num -> mom num -> mom num -> ST S unit.
  Variable amp2 : ST S (T num).
  Variable Inv : S -> Prop.
  Variable good : quad (mom num) -> Prop.
  Variable goodg : stream num -> Prop.
  Hypothesis Hamp : forall q s, Inv s -> good q -> exists a s',
    (set_momenta (q_1 q) (q_2 q) (q_3 q) (q_4 q) ;; amp2) s = (Ok a, s') /\ Inv s'.
  Definition moves (f : quad (mom num) -> ST (stream num) (quad (mom num))) : Prop :=
    forall q g, good q -> goodg g -> in_time late (fun q' g' => good q' /\ goodg g') (f q g).
  Hypothesis Hrot : moves rotate_random_test_momenta.
  Variable fuel : nat.
  Hypothesis Hboost : moves (boost_random_test_momenta fuel).
  Variable data : list (T num).
  Hypothesis Hdata : length data = 20%nat.
  Variables m1 m2 m3 m4 Pin : T num.
  Hypothesis Hlab : forall j, (j < 20)%nat -> good (set_test_momenta (set_test_initializations m1 m2 m3 m4 Pin) Pin (cost_of j)).

  Definition ok (lo hi : Z) (z : Z) (s : S * stream num) : Prop := (lo <= z <= hi)%Z /\ Inv (fst s) /\ goodg (snd s).
  Lemma amp_at_returns q s : good q -> Inv (fst s) -> goodg (snd s) ->
    exists a s', amp_at set_momenta amp2 q s = (Ok a, s') /\ Inv (fst s') /\ goodg (snd s').
  Proof.
    intros Hq HI HG. destruct s as [s g]. cbn [fst snd] in *. destruct (Hamp q s HI Hq) as (a & s' & E & HI').
    exists a, (s', g). split; [|auto]. unfold amp_at, sbind, on_proc. cbn [fst snd]. unfold sbind in E.
    destruct (set_momenta (q_1 q) (q_2 q) (q_3 q) (q_4 q) s) as [[[]|e|u] s1]; try discriminate E. cbn [fst snd]. rewrite E. reflexivity.
  Qed.
  Lemma tally_returns abs rel j q i hi s : good q -> (j < 20)%nat -> (hi < 1000)%Z -> ok 0 hi i s ->
    in_time late (ok 0 (hi + 1)) (tally set_momenta amp2 abs rel data j q i s).
  Proof.
    intros Hq Hj Hhi (Hi & HI & HG). destruct (amp_at_returns q s Hq HI HG) as (a & s' & E & HI' & HG').
    unfold tally. unfold sbind at 1. rewrite E. unfold sbind, slift at 1, arr_get.
    destruct (nth_error data j) as [d|] eqn:ED; [|apply nth_error_None in ED; lia].
    destruct (bad_point abs rel a d).
    - unfold slift, int_add, int_res. replace (in_int (i + 1)) with true.
      + split; [lia|auto].
      + symmetry. unfold in_int, int_min, int_max. apply andb_true_intro. split; apply Z.leb_le; lia.
    - split; [lia|auto].
  Qed.
  Lemma on_rng_returns f q s : moves f -> good q -> Inv (fst s) -> goodg (snd s) ->
    in_time late (fun q' s' => good q' /\ Inv (fst s') /\ goodg (snd s')) (on_rng (f q) s).
  Proof.
    intros Hf Hq HI HG. specialize (Hf q (snd s) Hq HG). unfold on_rng. destruct (f q (snd s)) as [[q'|e|[]] g']; cbn in *; tauto.
  Qed.
  (** a test that evaluates one point per step *)
  Lemma ten rel j (gen : ST (S * stream num) (quad (mom num))) i hi s : (j < 20)%nat -> (hi <= 900)%Z ->
    (forall s, Inv (fst s) -> goodg (snd s) -> in_time late (fun q s' => good q /\ Inv (fst s') /\ goodg (snd s')) (gen s)) ->
    ok 0 hi i s ->
    in_time late (ok 0 (hi + 10)) (sfor 0 10 (fun _ i => do q <- gen; tally set_momenta amp2 tol_abs rel data j q i) i s).
  Proof.
    intros Hj Hhi Hgen H. eapply (in_time_for _ late (fun k => ok 0 (hi + Z.of_nat k))); [rewrite Z.add_0_r; exact H|].
    intros k i' s' Hk HP. destruct HP as (HP & HI & HG). eapply in_time_bind; [apply Hgen; assumption|]. cbn beta.
    intros q s2 (Hq & HI2 & HG2). rewrite Nat2Z.inj_succ. replace (hi + Z.succ (Z.of_nat k))%Z with (hi + Z.of_nat k + 1)%Z by lia.
    apply tally_returns; [exact Hq|exact Hj|lia|]. split; [exact HP|auto].
  Qed.
  Lemma twenty (body : nat -> Z -> ST (S * stream num) Z) (w : Z) s : (0 <= w <= 10)%Z -> Inv (fst s) -> goodg (snd s) ->
    (forall j i hi s, (j < 20)%nat -> (0 <= hi <= 200)%Z -> ok 0 hi i s -> in_time late (ok 0 (hi + w)) (body j i s)) ->
    in_time late (ok 0 200) (sfor 0 20 body 0%Z s).
  Proof.
    intros Hw HI HG HB. eapply in_time_weaken.
    - eapply (in_time_for _ late (fun k => ok 0 (w * Z.of_nat k))); [split; [lia|auto]|].
      intros j i s' Hj HP. rewrite Nat2Z.inj_succ. replace (w * Z.succ (Z.of_nat j))%Z with (w * Z.of_nat j + w)%Z by lia.
      apply HB; [lia|nia|exact HP].
    - cbn beta. intros z s' (H1 & H2). split; [|exact H2]. change (Z.of_nat (0 + 20)) with 20%Z in H1. lia.
  Qed.
  Notation good_s s := (Inv (fst s) /\ goodg (snd s)).

  Lemma lab_returns s : good_s s -> in_time late (ok 0 200) (test_2to2_amp2 set_momenta amp2 m1 m2 m3 m4 Pin data s).
  Proof.
    intros [HI HG]. unfold test_2to2_amp2. apply (twenty _ 1); [lia|assumption|assumption|].
    intros j i hi s' Hj Hhi H. apply tally_returns; [apply Hlab, Hj|exact Hj|lia|exact H].
  Qed.
  Lemma rotations_return s : good_s s -> in_time late (ok 0 200) (test_2to2_amp2_rotations set_momenta amp2 m1 m2 m3 m4 Pin data s).
  Proof.
    intros [HI HG]. unfold test_2to2_amp2_rotations. apply (twenty _ 10); [lia|assumption|assumption|].
    intros j i hi s' Hj Hhi H. eapply in_time_bind.
    - eapply (in_time_for _ late (fun k iq s => ok 0 (hi + Z.of_nat k) (fst iq) s /\ good (snd iq))).
      + rewrite Z.add_0_r. split; [exact H|apply Hlab, Hj].
      + intros k iq s2 Hk ((HP & HI2 & HG2) & Hq). eapply in_time_bind; [apply (on_rng_returns _ _ _ Hrot Hq HI2 HG2)|].
        cbn beta. intros q s3 (Hq3 & HI3 & HG3). eapply in_time_bind.
        * apply (tally_returns tol_abs tol_9 j q (fst iq) (hi + Z.of_nat k)); [exact Hq3|exact Hj|lia|split; [exact HP|auto]].
        * cbn beta. intros z s4 H4. rewrite Nat2Z.inj_succ. cbn [sret in_time fst snd].
          replace (hi + Z.succ (Z.of_nat k))%Z with (hi + Z.of_nat k + 1)%Z by lia. auto.
    - cbn beta. intros iq s2 (H2 & _). exact H2.
  Qed.
  Lemma boosts_return s : good_s s -> in_time late (ok 0 200) (test_2to2_amp2_boosts set_momenta amp2 fuel m1 m2 m3 m4 Pin data s).
  Proof.
    intros [HI HG]. unfold test_2to2_amp2_boosts. apply (twenty _ 10); [lia|assumption|assumption|].
    intros j i hi s' Hj Hhi H. apply ten; [exact Hj|lia| |exact H].
    intros s2 HI2 HG2. apply (on_rng_returns _ _ _ Hboost); auto.
  Qed.
  Lemma both_return s : good_s s -> in_time late (ok 0 200) (test_2to2_amp2_boosts_and_rotations set_momenta amp2 fuel m1 m2 m3 m4 Pin data s).
  Proof.
    intros [HI HG]. unfold test_2to2_amp2_boosts_and_rotations. apply (twenty _ 10); [lia|assumption|assumption|].
    intros j i hi s' Hj Hhi H. set (lab := set_test_momenta _ _ _). assert (HL : good lab) by (apply Hlab, Hj). clearbody lab.
    rewrite (sfor_cong _ (fun _ i => do q <- (do q1 <- on_rng (rotate_random_test_momenta lab);
        do q2 <- on_rng (boost_random_test_momenta fuel q1); on_rng (rotate_random_test_momenta q2));
        tally set_momenta amp2 tol_abs tol_8 data j q i)).
    - apply ten; [exact Hj|lia| |exact H]. intros s2 HI2 HG2. eapply in_time_bind; [apply (on_rng_returns _ _ _ Hrot HL HI2 HG2)|].
      cbn beta. intros q1 s3 (Hq3 & HI3 & HG3). eapply in_time_bind; [apply (on_rng_returns _ _ _ Hboost Hq3 HI3 HG3)|].
      cbn beta. intros q2 s4 (Hq4 & HI4 & HG4). apply (on_rng_returns _ _ _ Hrot Hq4 HI4 HG4).
    - intros k a x. unfold sbind. destruct (on_rng (rotate_random_test_momenta lab) x) as [[q1|e|u] x1]; auto.
      destruct (on_rng (boost_random_test_momenta fuel q1) x1) as [[q2|e|u] x2]; auto.
  Qed.
End Harness.

(** ** Exact arithmetic: points on the mass shell *)
Section Real.
  Variables (st : bool) (eps : R).
  Notation num := (RN st eps).
  (** the generator never delivers 0 *)
  Definition never_zero (g : stream num) : Prop := forall n, g n <> 0%R.
  (** from anywhere in the stream, one of the next [fuel] triples is a velocity below 0.99:
      then the loop of boost_random_test_momenta ends *)
  Definition slow (g : stream num) (n : nat) : Prop :=
    (sqrt (g n * g n + g (n + 1)%nat * g (n + 1)%nat + g (n + 2)%nat * g (n + 2)%nat) < 99 / 100)%R.
  Definition timely (fuel : nat) (g : stream num) : Prop := forall n, exists k, (k < fuel)%nat /\ slow g (n + 3 * k).
  Definition rng_ready (late : Prop) (fuel : nat) (g : stream num) : Prop := never_zero g /\ (late \/ timely fuel g).
  Lemma rng_later late fuel g g' n : rng_ready late fuel g -> (forall k, g' k = g (n + k)%nat) -> rng_ready late fuel g'.
  Proof.
    intros [H1 H2] E. split; [intros k; rewrite E; apply H1|]. destruct H2 as [H2|H2]; [left; exact H2|right].
    intros j. destruct (H2 (n + j)%nat) as (k & Hk & HS). exists k. split; [exact Hk|]. unfold slow in *. rewrite !E.
    replace (n + (j + 3 * k + 1))%nat with (n + j + 3 * k + 1)%nat by lia.
    replace (n + (j + 3 * k + 2))%nat with (n + j + 3 * k + 2)%nat by lia.
    replace (n + (j + 3 * k))%nat with (n + j + 3 * k)%nat by lia. exact HS.
  Qed.
  Definition on_shell4 (m1 m2 m3 m4 : R) (q : quad (mom num)) : Prop :=
    on_shell m1 (q_1 q) /\ on_shell m2 (q_2 q) /\ on_shell m3 (q_3 q) /\ on_shell m4 (q_4 q).
  Lemma minksq_mdot p : minksq p = mdot p p.
  Proof. unfold minksq, mdot. ring. Qed.
  Lemma same_shell m1 m2 m3 m4 q q' : same_kinematics q q' -> on_shell4 m1 m2 m3 m4 q -> on_shell4 m1 m2 m3 m4 q'.
  Proof.
    intros [H _] (H1 & H2 & H3 & H4). unfold on_shell4, on_shell in *. rewrite minksq_mdot in *.
    repeat split.
    - rewrite <- H1. apply (H 0%nat 0%nat); reflexivity.
    - rewrite <- H2. rewrite !minksq_mdot. apply (H 1%nat 1%nat); reflexivity.
    - rewrite <- H3. rewrite !minksq_mdot. apply (H 2%nat 2%nat); reflexivity.
    - rewrite <- H4. rewrite !minksq_mdot. apply (H 3%nat 3%nat); reflexivity.
  Qed.
  Lemma ge_true (a b : R) : (b <= a)%R -> tgeb (n:=num) a b = true.
  Proof. intros H. apply Rgeb_true. apply Rle_ge, H. Qed.
  Lemma rotate_moves m1 m2 m3 m4 late fuel : moves (num:=num) late (on_shell4 m1 m2 m3 m4) (rng_ready late fuel) rotate_random_test_momenta.
  Proof.
    intros q g Hq Hg. pose proof (fun q' g' => proj1 (C52_random_frames st eps q q' g g')) as C.
    unfold rotate_random_test_momenta, choose_random_ldouble, sbind in *.
    rewrite (ge_true (tZ (n:=num) 1000) (tZ (n:=num) 0)) in * by (cbn; lra). rewrite (ge_true (tD (n:=num) _) (tZ (n:=num) 0)) in *.
    2,3: cbn; unfold Q2R; cbn; lra.
    cbn [sret in_time]. split.
    - eapply same_shell; [|exact Hq]. apply (C _ (fun k => g (Datatypes.S (Datatypes.S (Datatypes.S (Datatypes.S k)))))); [reflexivity|]. intros (H & _). exact (proj1 Hg 0%nat H).
    - apply (rng_later late fuel g _ 4 Hg). reflexivity.
  Qed.
  Lemma draw_moves late fuel : forall v0 vm (g : stream num), never_zero g ->
    (late \/ (vm < 99 / 100)%R \/ exists k, (k < fuel)%nat /\ slow g (3 * k)) ->
    ((vm < 99 / 100)%R -> x_0 v0 <> 0%R /\ vm = sqrt (x_0 v0 * x_0 v0 + x_1 v0 * x_1 v0 + x_2 v0 * x_2 v0)) ->
    in_time late (fun v g' => x_0 v <> 0%R /\ (sqrt (x_0 v * x_0 v + x_1 v * x_1 v + x_2 v * x_2 v) < 99 / 100)%R /\
        exists n, forall k, g' k = g (n + k)%nat)
      (boost_draw (num:=num) fuel v0 vm g).
  Proof.
    assert (L : lit (num:=num) (99 # 100) = (99 / 100)%R) by (unfold lit; cbn; unfold Q2R; cbn; lra).
    induction fuel as [|fuel IH]; intros v0 vm g Hg HL H; cbn [boost_draw]; rewrite L; change (@tgeb num) with Rgeb.
    - destruct (Rgeb vm (99 / 100)) eqn:EV.
      { apply Rgeb_true in EV. destruct HL as [HL|[HL|(k & HL & _)]]; [exact HL|exfalso; change (T num) with R in *; lra|lia]. }
      apply Rgeb_false in EV. destruct (H EV) as [H1 H2].
      split; [exact H1|]. split; [|exists 0%nat; reflexivity]. exact (eq_ind _ (fun x => (x < 99 / 100)%R) EV _ H2).
    - destruct (Rgeb vm (99 / 100)) eqn:EV.
      + assert (O : tgeb (tZ (n:=num) 1) (tZ (n:=num) 0) = true) by (apply ge_true; cbn; lra).
        unfold sbind at 1, choose_random_ldouble at 1. rewrite O.
        unfold sbind at 1, choose_random_ldouble at 1. rewrite O.
        unfold sbind at 1, choose_random_ldouble at 1. rewrite O.
        eapply in_time_weaken; [apply IH|].
        * intros n; apply Hg.
        * apply Rgeb_true in EV. destruct HL as [HL|[HL|(k & HL & HS)]]; [left; exact HL|exfalso; change (T num) with R in *; lra|right].
          destruct k as [|k]; [left; exact HS|right]. exists k. split; [lia|]. unfold slow in *.
          replace (3 * Datatypes.S k)%nat with (3 + 3 * k)%nat in HS by lia. exact HS.
        * intros _. split; [apply (Hg 0%nat)|reflexivity].
        * cbn beta. intros v g' (A & B & n & C). split; [exact A|]. split; [exact B|]. exists (3 + n)%nat. intros k. apply C.
      + apply Rgeb_false in EV. destruct (H EV) as [H1 H2]. split; [exact H1|]. split; [|exists 0%nat; reflexivity].
        exact (eq_ind _ (fun x => (x < 99 / 100)%R) EV _ H2).
  Qed.
  Lemma boost_moves m1 m2 m3 m4 late fuel : moves (num:=num) late (on_shell4 m1 m2 m3 m4) (rng_ready late fuel) (boost_random_test_momenta fuel).
  Proof.
    intros q g Hq Hg. unfold boost_random_test_momenta. eapply in_time_bind.
    - apply (draw_moves late); [exact (proj1 Hg)| |cbn; lra]. destruct Hg as [_ [Hg|Hg]]; [left; exact Hg|right; right; exact (Hg 0%nat)].
    - cbn beta. intros v g' (H0 & HB & n & Hg'). cbn [sret in_time]. split; [|exact (rng_later late fuel g g' n Hg Hg')].
      eapply same_shell; [|exact Hq].
      assert (V : (0 < x_0 v * x_0 v + x_1 v * x_1 v + x_2 v * x_2 v < 1)%R).
      { clear - HB H0. destruct v as [a b c]. cbn [x_0 x_1 x_2] in *. change (T num) with R in *.
        pose proof (Rsqr_pos_lt a H0). pose proof (Rle_0_sqr b). pose proof (Rle_0_sqr c). unfold Rsqr in *. split; [lra|].
        apply sqrt_lt_0_alt. rewrite sqrt_1. lra. }
      apply (same_kin (fun p => boost_momentum (num:=num) p v)).
      + intros p p'. apply (C28_boost_preserves st eps v V p p').
      + intros p p'. apply (C28_boost_preserves st eps v V p p').
      + intros p. apply (C28_boost_preserves st eps v V p p).
  Qed.

  (** the points of the centre-of-mass frame *)
  Lemma cost_range j : (j < 20)%nat -> (-1 <= cost_of (num:=num) j <= 1)%R.
  Proof.
    intros Hj. do 20 (destruct j as [|j]; [unfold cost_of; cbn; unfold Q2R; cbn; lra|]). lia.
  Qed.
  Lemma lab_on_shell m1 m2 m3 m4 Pin j : (j < 20)%nat ->
    on_shell4 m1 m2 m3 m4 (set_test_momenta (num:=num) (set_test_initializations (num:=num) m1 m2 m3 m4 Pin) Pin (cost_of (num:=num) j)).
  Proof.
    intros Hj. pose proof (cost_range j Hj) as HC. revert HC. generalize (cost_of (num:=num) j). change (T num) with R. intros c HC.
    unfold set_test_initializations. cbv zeta. set (P := (_ / (tZ (n:=num) 2 * _))%ld). clearbody P. change (T num) with R in P.
    unfold set_test_momenta. cbv zeta. cbn [En1 En2 En3 En4 Pout].
    assert (L : lit (num:=num) (1 # 1) = 1%R) by (unfold lit; cbn; unfold Q2R; cbn; lra). rewrite L.
    change (@tsqrt num) with sqrt. change (@tadd num) with Rplus. change (@tmul num) with Rmult. change (@tsub num) with Rminus. change (@topp num) with Ropp.
    change (tZ (n:=num) 0) with 0%R.
    assert (Q : forall a b : R, (sqrt (a * a + b * b) * sqrt (a * a + b * b) = a * a + b * b)%R).
    { intros a b. apply sqrt_sqrt. pose proof (Rle_0_sqr a). pose proof (Rle_0_sqr b). unfold Rsqr in *. lra. }
    assert (S1 : (sqrt (1 - c * c) * sqrt (1 - c * c) = 1 - c * c)%R) by (apply sqrt_sqrt; nra).
    unfold on_shell4, on_shell, minksq. cbn [q_1 q_2 q_3 q_4 v_0 v_1 v_2 v_3]. rewrite !Q. repeat split; try ring.
    - replace (P * P + m3 * m3 - P * sqrt (1 - c * c) * (P * sqrt (1 - c * c)) - 0 * 0 - P * c * (P * c))%R
        with (m3 * m3 + P * P * (1 - sqrt (1 - c * c) * sqrt (1 - c * c) - c * c))%R by ring. rewrite S1. ring.
    - replace (P * P + m4 * m4 - - (P * sqrt (1 - c * c)) * - (P * sqrt (1 - c * c)) - 0 * 0 - - (P * c) * - (P * c))%R
        with (m4 * m4 + P * P * (1 - sqrt (1 - c * c) * sqrt (1 - c * c) - c * c))%R by ring. rewrite S1. ring.
  Qed.
End Real.
