(** * The mass shell guard in floating point

    Used in proofs only: the rounding errors of particle::update (source/particle.cpp 69-71). *)
From Coq Require Import ZArith Reals Lra Lia.
From Flocq Require Import Core BinarySingleNaN.
From Verif Require Import Base Scalar IEEE FloatErr.
Open Scope R_scope.

Section Shell.
  Variables prec emax : Z.
  Context (Hp : Prec_gt_0 prec) (He : Prec_lt_emax prec emax).
  Notation F := (binary_float prec emax).
  Hypothesis Hprec : (40 <= prec)%Z.
  Hypothesis Hemax : (3 * prec <= emax)%Z.
  Notation u := (uu prec). Notation mul := (fmul prec emax Hp He). Notation add := (fadd prec emax Hp He).
  Notation sub := (fsub prec emax Hp He). Notation rt := (fsqrt prec emax Hp He).
  Notation near := (near prec emax). Notation val := (@B2R prec emax).

  (** a small part of 1; the smallest numbers do not matter beside it *)
  Definition dd : R := / 1152921504606846976.      (* 2^-60 *)
  Lemma dd_eq : dd = / 1152921504606846976. Proof. reflexivity. Qed.
  Lemma u_small : 0 < u <= / 1099511627776.
  Proof. split; [apply uu_pos|]. apply (uu_small prec Hprec). Qed.
  Lemma eta_u : 0 < eta prec emax <= u * (dd * dd * 1048576).
  Proof.
    split; [apply eta_pos|]. eapply Rle_trans; [apply (eta_tiny prec emax Hprec Hemax)|]. apply Rmult_le_compat_l; [apply Rlt_le, uu_pos|].
    apply Req_le. change (bpow radix2 (-100)) with (/ IZR (2 ^ 100)). unfold dd. replace (2 ^ 100)%Z with (1152921504606846976 * 1099511627776)%Z by reflexivity. rewrite mult_IZR. field.
  Qed.
  (** the error of one operation, for values up to K *)
  Lemma near_le z x K : near z x -> Rabs x <= K -> Rabs (val z - x) <= u * (K + dd).
  Proof.
    intros (_ & H) HK. pose proof u_small as U. pose proof eta_u as T. pose proof dd_eq as D. rewrite D in *. assert (u * Rabs x <= u * K) by (apply Rmult_le_compat_l; lra).
    rewrite Rmult_plus_distr_l. lra.
  Qed.
  Lemma near_le2 z x K : near z x -> 0 <= x <= K -> - (u * (K + dd)) <= val z - x <= u * (K + dd).
  Proof. intros H HK. apply Rabs_le_inv. apply near_le; [exact H|]. rewrite Rabs_pos_eq; lra. Qed.
  (** the square of a rounded square root *)
  Lemma square_le z b K : near z (sqrt b) -> 0 <= b <= K -> K <= 1073741824 -> - (u * (2 * K + K * / 1073741824 + dd)) <= val z * val z - b <= u * (2 * K + K * / 1073741824 + dd).
  Proof.
    intros (_ & H) Hb HK. pose proof u_small as U. pose proof eta_u as T. apply Rabs_le_inv. set (s := sqrt b) in *.
    assert (S0 : 0 <= s) by apply sqrt_pos. assert (SS : s * s = b) by (apply sqrt_sqrt; lra). rewrite (Rabs_pos_eq s S0) in H.
    assert (S1 : s <= 32768). { apply Rsqr_incr_0_var; [|lra]. unfold Rsqr. lra. }
    set (dl := val z - s) in *. replace (val z * val z - b) with (dl * (2 * s + dl)) by (unfold dl; rewrite <- SS; ring).
    set (t := eta prec emax) in *. rewrite Rabs_mult.
    assert (D : Rabs (2 * s + dl) <= 2 * s + (u * s + t)).
    { eapply Rle_trans; [apply Rabs_triang|]. rewrite (Rabs_pos_eq (2 * s)) by lra. lra. }
    eapply Rle_trans; [apply Rmult_le_compat; [apply Rabs_pos|apply Rabs_pos|exact H|exact D]|].
    assert (US : 0 <= u * s <= / 1099511627776 * 32768) by (split; [apply Rmult_le_pos; lra|apply Rmult_le_compat; lra]).
    replace ((u * s + t) * (2 * s + (u * s + t))) with (u * (2 * b + u * b) + t * (2 * s + 2 * (u * s) + t)) by (rewrite <- SS; ring).
    assert (E1 : u * b <= / 1099511627776 * K) by (apply Rmult_le_compat; lra).
    assert (T1 : t <= 1). { pose proof dd_eq as Dd. rewrite Dd in T. lra. }
    assert (E3 : t * (2 * s + 2 * (u * s) + t) <= t * 65538) by (apply Rmult_le_compat_l; lra).
    assert (E4 : u * (2 * b + u * b) <= u * (2 * K + K * / 1073741824)) by (apply Rmult_le_compat_l; lra).
    replace (u * (2 * K + K * / 1073741824 + dd)) with (u * (2 * K + K * / 1073741824) + u * dd) by ring. apply Rplus_le_compat; [exact E4|].
    eapply Rle_trans; [exact E3|]. unfold dd in *. lra.
  Qed.

  Variable N : R.
  Hypothesis HN : / 1099511627776 <= N <= 67108864.
  Variables p0 p1 p2 p3 m : F.
  Hypothesis F0 : is_finite p0 = true. Hypothesis F1 : is_finite p1 = true. Hypothesis F2 : is_finite p2 = true.
  Hypothesis F3 : is_finite p3 = true. Hypothesis Fm : is_finite m = true.
  Hypothesis HE : val p0 * val p0 <= N.
  Hypothesis HS : Rabs (val p0 * val p0 - (val p1 * val p1 + val p2 * val p2 + val p3 * val p3 + val m * val m)) <= 8 * (u * N).

  Definition pxy : F := rt (add (mul p1 p1) (mul p2 p2)).
  Definition pmag : F := rt (add (mul pxy pxy) (mul p3 p3)).
  Definition off : F := sub (sub (mul p0 p0) (mul pmag pmag)) (mul m m).
  Definition tol : F := mul (feps prec emax Hp He) (fof prec emax Hp He 1000000000).

  Lemma squares : (0 <= val p0 * val p0 <= N) /\ (0 <= val p1 * val p1) /\ (0 <= val p2 * val p2) /\ (0 <= val p3 * val p3) /\ (0 <= val m * val m) /\
    val p1 * val p1 + val p2 * val p2 + val p3 * val p3 + val m * val m <= N + 8 * (u * N).
  Proof.
    assert (A : forall x, 0 <= x * x) by (intros x; apply Rle_0_sqr).
    repeat split; try apply A; try exact HE. apply Rabs_le_inv in HS. lra.
  Qed.
  Lemma uN : 0 < u * N <= N * / 1099511627776 /\ 0 < u * dd <= u * N * / 1048576 /\ u * (u * N) <= u * N * / 1099511627776.
  Proof.
    pose proof u_small as U. assert (0 < u * N) by (apply Rmult_lt_0_compat; lra). split; [split; [assumption|]|split; [split|]].
    - rewrite Rmult_comm. apply Rmult_le_compat_l; lra.
    - apply Rmult_lt_0_compat; [lra|]. unfold dd. lra.
    - rewrite Rmult_assoc. apply Rmult_le_compat_l; [lra|]. unfold dd. lra.
    - rewrite (Rmult_comm u (u * N)). apply Rmult_le_compat_l; lra.
  Qed.
  (** |pmag|^2 is the square of the momentum up to ten roundings *)
  Lemma pmag_square : is_finite pmag = true /\ 0 <= val pmag /\ val pmag * val pmag <= N + N * / 1000 /\
    Rabs (val pmag * val pmag - (val p1 * val p1 + val p2 * val p2 + val p3 * val p3)) <= 10 * (u * N) + u * N * / 100 /\ is_finite pxy = true.
  Proof.
    destruct squares as (S0 & S1 & S2 & S3 & Sm & SS). pose proof u_small as U. destruct uN as (W1 & W2 & W3).
    assert (BG : big = 1099511627776) by reflexivity.
    assert (AB : forall x, 0 <= x <= N + N * / 1000 -> Rabs x <= big) by (intros x H1; rewrite BG, Rabs_pos_eq; lra).
    set (K := N + 30 * (u * N)).
    assert (UK : u * K <= u * N + u * N * / 100000) by (unfold K; rewrite Rmult_plus_distr_l; lra).
    assert (L : forall z x, near z x -> 0 <= x <= K -> - (u * N + u * N * / 1000) <= val z - x <= u * N + u * N * / 1000).
    { intros z x Hz Hx. pose proof (near_le2 _ _ K Hz Hx) as Q. lra. }
    assert (L2 : forall z b, near z (sqrt b) -> 0 <= b <= K -> - (2 * (u * N) + u * N * / 1000) <= val z * val z - b <= 2 * (u * N) + u * N * / 1000).
    { intros z b Hz Hb. pose proof (square_le _ _ K Hz Hb ltac:(unfold K; lra)) as Q. lra. }
    assert (A1 := mul_near prec emax Hp He Hprec Hemax p1 p1 F1 F1 (AB (val p1 * val p1) ltac:(lra))).
    assert (A2 := mul_near prec emax Hp He Hprec Hemax p2 p2 F2 F2 (AB (val p2 * val p2) ltac:(lra))).
    assert (A3 := mul_near prec emax Hp He Hprec Hemax p3 p3 F3 F3 (AB (val p3 * val p3) ltac:(lra))).
    assert (P1 := mul_nonneg prec emax Hp He Hprec Hemax p1 p1 (AB (val p1 * val p1) ltac:(lra)) S1).
    assert (P2 := mul_nonneg prec emax Hp He Hprec Hemax p2 p2 (AB (val p2 * val p2) ltac:(lra)) S2).
    assert (P3 := mul_nonneg prec emax Hp He Hprec Hemax p3 p3 (AB (val p3 * val p3) ltac:(lra)) S3).
    assert (E1 := L _ _ A1 ltac:(unfold K; lra)). assert (E2 := L _ _ A2 ltac:(unfold K; lra)). assert (E3 := L _ _ A3 ltac:(unfold K; lra)).
    destruct A1 as (G1 & _), A2 as (G2 & _), A3 as (G3 & _).
    set (a1 := mul p1 p1) in *. set (a2 := mul p2 p2) in *. set (a3 := mul p3 p3) in *.
    assert (A : near (add a1 a2) (val a1 + val a2)) by (apply add_near; auto; apply AB; lra).
    assert (PA : 0 <= val (add a1 a2)) by (apply add_nonneg; auto; [apply AB; lra|lra]).
    assert (EA := L _ _ A ltac:(unfold K; lra)). assert (Ga := proj1 A).
    assert (X : near pxy (sqrt (val (add a1 a2)))) by (apply sqrt_near; auto).
    assert (EX := L2 _ _ X ltac:(unfold K; lra)). assert (Gx := proj1 X).
    assert (SX : 0 <= val pxy * val pxy) by apply Rle_0_sqr.
    assert (XX : near (mul pxy pxy) (val pxy * val pxy)) by (apply mul_near; auto; apply AB; lra).
    assert (PXX : 0 <= val (mul pxy pxy)) by (apply mul_nonneg; auto; apply AB; lra).
    assert (EXX := L _ _ XX ltac:(unfold K; lra)). assert (Gxx := proj1 XX).
    assert (B : near (add (mul pxy pxy) a3) (val (mul pxy pxy) + val a3)) by (apply add_near; auto; apply AB; lra).
    assert (PB : 0 <= val (add (mul pxy pxy) a3)) by (apply add_nonneg; auto; [apply AB; lra|lra]).
    assert (EB := L _ _ B ltac:(unfold K; lra)). assert (Gb := proj1 B).
    assert (Y : near pmag (sqrt (val (add (mul pxy pxy) a3)))) by (apply sqrt_near; auto).
    assert (EY := L2 _ _ Y ltac:(unfold K; lra)).
    split; [exact (proj1 Y)|]. split; [apply sqrt_nonneg|]. split; [lra|]. split; [|exact Gx]. apply Rabs_le. split; lra.
  Qed.
  Lemma off_small : is_finite off = true /\ Rabs (val off) <= 24 * (u * N).
  Proof.
    destruct squares as (S0 & S1 & S2 & S3 & Sm & SS). pose proof u_small as U. destruct pmag_square as (Fy & Y0 & Y1 & Y2 & _). destruct uN as (W1 & W2 & W3).
    assert (BG : big = 1099511627776) by reflexivity.
    assert (AB : forall x, 0 <= x <= N + N * / 1000 -> Rabs x <= big) by (intros x H1; rewrite BG, Rabs_pos_eq; lra).
    assert (AC : forall x, - (N + N * / 1000) <= x <= N + N * / 1000 -> Rabs x <= big) by (intros x H1; rewrite BG; apply Rabs_le; lra).
    set (K := N + 30 * (u * N)).
    assert (UK : u * K <= u * N + u * N * / 100000) by (unfold K; rewrite Rmult_plus_distr_l; lra).
    assert (L : forall z x, near z x -> - K <= x <= K -> - (u * N + u * N * / 1000) <= val z - x <= u * N + u * N * / 1000).
    { intros z x Hz Hx. pose proof (near_le _ _ K Hz (Rabs_le _ _ Hx)) as Q. apply Rabs_le_inv in Q. lra. }
    assert (SY : 0 <= val pmag * val pmag) by apply Rle_0_sqr. apply Rabs_le_inv in Y2. apply Rabs_le_inv in HS.
    assert (A := mul_near prec emax Hp He Hprec Hemax p0 p0 F0 F0 (AB (val p0 * val p0) ltac:(lra))). assert (EA := L _ _ A ltac:(unfold K; lra)).
    assert (B := mul_near prec emax Hp He Hprec Hemax pmag pmag Fy Fy (AB (val pmag * val pmag) ltac:(lra))). assert (EB := L _ _ B ltac:(unfold K; lra)).
    assert (M := mul_near prec emax Hp He Hprec Hemax m m Fm Fm (AB (val m * val m) ltac:(lra))). assert (EM := L _ _ M ltac:(unfold K; lra)).
    set (a := mul p0 p0) in *. set (b := mul pmag pmag) in *. set (mm := mul m m) in *.
    assert (D := sub_near prec emax Hp He Hprec Hemax a b (proj1 A) (proj1 B) (AC (val a - val b) ltac:(lra))).
    assert (ED := L _ _ D ltac:(unfold K; lra)).
    assert (R := sub_near prec emax Hp He Hprec Hemax (sub a b) mm (proj1 D) (proj1 M) (AC (val (sub a b) - val mm) ltac:(lra))).
    assert (ER := L _ _ R ltac:(unfold K; lra)).
    split; [exact (proj1 R)|]. apply Rabs_le. unfold off. fold a b mm. split; lra.
  Qed.
  Lemma tol_large : is_finite tol = true /\ u * 1990000000 <= val tol.
  Proof.
    pose proof u_small as U. pose proof eta_u as T. assert (BG : big = 1099511627776) by reflexivity.
    assert (EP : near (feps prec emax Hp He) (2 * u)).
    { pose proof (binary_normalize_correct prec emax Hp He mode_NE 1 (1 - prec) false) as K. cbv zeta in K.
      assert (X : @F2R radix2 {| Fnum := 1; Fexp := 1 - prec |} = 2 * u).
      { unfold F2R, uu. cbn [Fnum Fexp]. rewrite Rmult_1_l. replace 2 with (bpow radix2 1) by reflexivity. rewrite <- bpow_plus. f_equal. }
      rewrite X in K. rewrite (rnd_fits prec emax Hp Hprec Hemax) in K by (rewrite BG, Rabs_pos_eq; lra). destruct K as (K1 & K2 & _).
      split; [exact K2|]. unfold feps. rewrite K1. apply (rnd_err prec emax Hp). }
    assert (EQ : near (fof prec emax Hp He 1000000000) 1000000000).
    { pose proof (binary_normalize_correct prec emax Hp He mode_NE 1000000000 0 false) as K. cbv zeta in K.
      assert (X : @F2R radix2 {| Fnum := 1000000000; Fexp := 0 |} = 1000000000) by (unfold F2R; cbn [Fnum Fexp bpow]; ring).
      rewrite X in K. rewrite (rnd_fits prec emax Hp Hprec Hemax) in K by (rewrite BG, Rabs_pos_eq; lra). destruct K as (K1 & K2 & _).
      split; [exact K2|]. unfold fof. rewrite K1. apply (rnd_err prec emax Hp). }
    pose proof dd_eq as Dd. assert (H1 := near_le2 _ _ 1000000000 EQ ltac:(lra)). rewrite Dd in H1.
    assert (H2 : - (u * / 1000000) <= val (feps prec emax Hp He) - 2 * u <= u * / 1000000).
    { destruct EP as (_ & EP). apply Rabs_le_inv in EP. rewrite Dd in T. rewrite Rabs_pos_eq in EP by lra.
      assert (u * (2 * u) <= u * (2 * / 1099511627776)) by (apply Rmult_le_compat_l; lra). split; lra. }
    assert (V1 : 999999998 <= val (fof prec emax Hp He 1000000000) <= 1000000002) by lra.
    assert (V2 : u * (2 - / 1000000) <= val (feps prec emax Hp He) <= u * (2 + / 1000000)) by lra.
    assert (V3 : u * (2 - / 1000000) * 999999998 <= val (feps prec emax Hp He) * val (fof prec emax Hp He 1000000000)) by (apply Rmult_le_compat; lra).
    assert (V4 : val (feps prec emax Hp He) * val (fof prec emax Hp He 1000000000) <= u * (2 + / 1000000) * 1000000002) by (apply Rmult_le_compat; lra).
    assert (M := mul_near prec emax Hp He Hprec Hemax _ _ (proj1 EP) (proj1 EQ) ltac:(rewrite BG, Rabs_pos_eq; lra)).
    assert (EM := near_le2 _ _ 1 M ltac:(lra)). rewrite Dd in EM. split; [exact (proj1 M)|]. unfold tol. lra.
  Qed.
  Lemma guard_passes : fgt prec emax (fabs prec emax off) tol = false.
  Proof.
    destruct off_small as (Fo & Ho). destruct tol_large as (Ft & Ht). unfold fgt, fabs. rewrite Bltb_correct by (rewrite ?is_finite_Babs; assumption).
    apply Rlt_bool_false. rewrite B2R_Babs. pose proof u_small as U. assert (u * N <= u * 67108864) by (apply Rmult_le_compat_l; lra). lra.
  Qed.
End Shell.

(** ** Momenta given by exact ones *)
Section Close.
  Variables prec emax : Z.
  Context (Hp : Prec_gt_0 prec) (He : Prec_lt_emax prec emax).
  Notation F := (binary_float prec emax).
  Hypothesis Hprec : (40 <= prec)%Z.
  Hypothesis Hemax : (3 * prec <= emax)%Z.
  Notation u := (uu prec). Notation mul := (fmul prec emax Hp He). Notation add := (fadd prec emax Hp He).
  Notation sub := (fsub prec emax Hp He). Notation rt := (fsqrt prec emax Hp He).
  Notation near := (near prec emax). Notation val := (@B2R prec emax).
  (** a number not further from [x] than one unit in the last place *)
  Definition close (z : F) (x : R) : Prop := is_finite z = true /\ Rabs (val z - x) <= 2 * u * Rabs x + eta prec emax.

  Lemma close_square z x : close z x -> Rabs x <= 8192 -> - (u * (4 * (x * x) + x * x * / 1000000 + dd)) <= val z * val z - x * x <= u * (4 * (x * x) + x * x * / 1000000 + dd).
  Proof.
    intros (_ & H) HX. pose proof (u_small prec Hprec) as U. pose proof (eta_u prec emax Hprec Hemax) as T. apply Rabs_le_inv. set (t := eta prec emax) in *.
    replace (val z * val z - x * x) with ((val z - x) * (2 * x + (val z - x))) by ring. set (dl := val z - x) in *. rewrite Rabs_mult.
    set (a := Rabs x) in *. assert (A0 : 0 <= a) by apply Rabs_pos. assert (AA : x * x = a * a) by (unfold a; rewrite <- Rabs_mult, Rabs_pos_eq; [reflexivity|apply Rle_0_sqr]).
    rewrite AA. assert (S : Rabs (2 * x + dl) <= 2 * a + (2 * u * a + t)).
    { eapply Rle_trans; [apply Rabs_triang|]. apply Rplus_le_compat; [|exact H]. rewrite Rabs_mult, (Rabs_pos_eq 2) by lra. apply Rle_refl. }
    eapply Rle_trans; [apply Rmult_le_compat; [apply Rabs_pos|apply Rabs_pos|exact H|exact S]|].
    replace ((2 * u * a + t) * (2 * a + (2 * u * a + t))) with (u * (4 * (a * a) + 4 * (u * (a * a))) + t * (2 * a + 4 * (u * a) + t)) by ring.
    assert (Q : 0 <= a * a) by (apply Rmult_le_pos; exact A0).
    assert (E1 : u * (a * a) <= / 1099511627776 * (a * a)) by (apply Rmult_le_compat_r; lra).
    assert (E2 : 0 <= u * a <= / 1099511627776 * 8192) by (split; [apply Rmult_le_pos; lra|apply Rmult_le_compat; lra]).
    assert (T1 : t <= 1) by (unfold dd in T; lra).
    assert (E3 : t * (2 * a + 4 * (u * a) + t) <= t * 16386) by (apply Rmult_le_compat_l; lra).
    assert (E4 : u * (4 * (a * a) + 4 * (u * (a * a))) <= u * (4 * (a * a) + a * a * / 1000000)) by (apply Rmult_le_compat_l; lra).
    replace (u * (4 * (a * a) + a * a * / 1000000 + dd)) with (u * (4 * (a * a) + a * a * / 1000000) + u * dd) by ring.
    apply Rplus_le_compat; [exact E4|]. eapply Rle_trans; [exact E3|]. unfold dd in *. lra.
  Qed.

  Lemma root_square v A r : near v A -> 0 <= A <= 32768 -> 0 <= val v -> near r (sqrt (val v)) ->
    - (3 * (u * A) + u * A * / 1000 + 3 * (u * dd)) <= val r * val r - A <= 3 * (u * A) + u * A * / 1000 + 3 * (u * dd).
  Proof.
    intros Hv HA V Hr. pose proof (u_small prec Hprec) as U. pose proof (near_le2 prec emax Hprec Hemax _ _ A Hv ltac:(lra)) as E1.
    assert (UA : 0 <= u * A <= / 1099511627776 * 32768) by (split; [apply Rmult_le_pos; lra|apply Rmult_le_compat; lra]).
    assert (UD : 0 <= u * dd <= / 1099511627776) by (unfold dd; lra).
    pose proof (square_le prec emax Hprec Hemax _ _ (val v) Hr ltac:(lra) ltac:(lra)) as E2.
    assert (K : u * val v <= u * A + u * (u * A + u * dd)) by (rewrite <- Rmult_plus_distr_l; apply Rmult_le_compat_l; lra).
    assert (K2 : u * (u * A + u * dd) <= / 1099511627776 * (u * A + u * dd)) by (apply Rmult_le_compat_r; lra).
    assert (K3 : 0 <= u * val v) by (apply Rmult_le_pos; lra).
    replace (u * (2 * val v + val v * / 1073741824 + dd)) with (2 * (u * val v) + u * val v * / 1073741824 + u * dd) in E2 by ring.
    replace (u * (A + dd)) with (u * A + u * dd) in E1 by ring.
    set (ua := u * A) in *. set (ud := u * dd) in *. set (uv := u * val v) in *. lra.
  Qed.

  Variables p0 p1 p2 p3 m : F. Variables e x y z w : R.
  Hypothesis C0 : close p0 e. Hypothesis C1 : close p1 x. Hypothesis C2 : close p2 y. Hypothesis C3 : close p3 z. Hypothesis Cm : close m w.
  Hypothesis HS : e * e = x * x + y * y + z * z + w * w.
  Hypothesis HE : Rabs e <= 8191.
  Notation pm := (pmag prec emax Hp He p1 p2 p3).

  Lemma parts : 0 <= x * x /\ 0 <= y * y /\ 0 <= z * z /\ 0 <= w * w /\ e * e <= 67092481 /\
    Rabs e <= 8192 /\ Rabs x <= 8192 /\ Rabs y <= 8192 /\ Rabs z <= 8192 /\ Rabs w <= 8192.
  Proof.
    assert (A : forall v, 0 <= v * v) by (intros v; apply Rle_0_sqr).
    assert (E : e * e <= 67092481).
    { rewrite <- (Rabs_pos_eq (e * e)) by apply A. rewrite Rabs_mult. replace 67092481 with (8191 * 8191) by lra. apply Rmult_le_compat; try apply Rabs_pos; exact HE. }
    assert (B : forall v, v * v <= 67092481 -> Rabs v <= 8192).
    { intros v Hv. apply Rsqr_incr_0_var; [|lra]. unfold Rsqr. rewrite <- Rabs_mult, Rabs_pos_eq by apply A. lra. }
    pose proof (A x). pose proof (A y). pose proof (A z). pose proof (A w). repeat split; try assumption; apply B; lra.
  Qed.
  Lemma close_shell N : e * e + e * e * / 10000 <= N -> / 1099511627776 <= N ->
    val p0 * val p0 <= N /\ Rabs (val p0 * val p0 - (val p1 * val p1 + val p2 * val p2 + val p3 * val p3 + val m * val m)) <= 8 * (u * N).
  Proof.
    intros H1 H2. destruct parts as (X & Y & Z & W & E & B0 & B1 & B2 & B3 & Bm). pose proof (u_small prec Hprec) as U.
    pose proof (close_square _ _ C0 B0) as D0. pose proof (close_square _ _ C1 B1) as D1. pose proof (close_square _ _ C2 B2) as D2.
    pose proof (close_square _ _ C3 B3) as D3. pose proof (close_square _ _ Cm Bm) as Dm.
    assert (EN : u * (e * e) + u * (e * e) * / 10000 <= u * N) by (replace (u * (e * e) + u * (e * e) * / 10000) with (u * (e * e + e * e * / 10000)) by ring; apply Rmult_le_compat_l; lra).
    assert (DN : u * dd <= u * N * / 1048576) by (rewrite Rmult_assoc; apply Rmult_le_compat_l; [lra|unfold dd; lra]).
    assert (U1 : u * (e * e) <= / 1099511627776 * (e * e)) by (apply Rmult_le_compat_r; lra).
    assert (U2 : u * N <= / 1099511627776 * N) by (apply Rmult_le_compat_r; lra).
    assert (SU : u * (e * e) = u * (x * x) + u * (y * y) + u * (z * z) + u * (w * w)) by (rewrite HS; ring).
    replace (u * (4 * (e * e) + e * e * / 1000000 + dd)) with (4 * (u * (e * e)) + u * (e * e) * / 1000000 + u * dd) in D0 by ring.
    replace (u * (4 * (x * x) + x * x * / 1000000 + dd)) with (4 * (u * (x * x)) + u * (x * x) * / 1000000 + u * dd) in D1 by ring.
    replace (u * (4 * (y * y) + y * y * / 1000000 + dd)) with (4 * (u * (y * y)) + u * (y * y) * / 1000000 + u * dd) in D2 by ring.
    replace (u * (4 * (z * z) + z * z * / 1000000 + dd)) with (4 * (u * (z * z)) + u * (z * z) * / 1000000 + u * dd) in D3 by ring.
    replace (u * (4 * (w * w) + w * w * / 1000000 + dd)) with (4 * (u * (w * w)) + u * (w * w) * / 1000000 + u * dd) in Dm by ring.
    set (ue := u * (e * e)) in *. set (ux := u * (x * x)) in *. set (uy := u * (y * y)) in *. set (uz := u * (z * z)) in *. set (uw := u * (w * w)) in *.
    set (un := u * N) in *. set (ud := u * dd) in *.
    split; [lra|]. apply Rabs_le. split; lra.
  Qed.
  (** the guard of particle::update lets the momentum pass *)
  Lemma close_passes : fgt prec emax (fabs prec emax (off prec emax Hp He p0 p1 p2 p3 m)) (tol prec emax Hp He) = false.
  Proof.
    destruct parts as (_ & _ & _ & _ & E & _). destruct (close_shell 67108864 ltac:(lra) ltac:(lra)) as (H1 & H2).
    apply (guard_passes prec emax Hp He Hprec Hemax 67108864 ltac:(lra)); auto; [exact (proj1 C0)|exact (proj1 C1)|exact (proj1 C2)|exact (proj1 C3)|exact (proj1 Cm)].
  Qed.

  Hypothesis HL : / 1048576 <= e.
  Lemma pxy_fin : is_finite (pxy prec emax Hp He p1 p2) = true.
  Proof.
    destruct parts as (_ & _ & _ & _ & E & _). destruct (close_shell 67108864 ltac:(lra) ltac:(lra)) as (H1 & H2).
    apply (pmag_square prec emax Hp He Hprec Hemax 67108864 ltac:(lra) p0 p1 p2 p3 m (proj1 C1) (proj1 C2) (proj1 C3) H1 H2).
  Qed.
  Lemma e_sq : / 1099511627776 <= e * e.
  Proof. replace (/ 1099511627776) with (/ 1048576 * / 1048576) by lra. apply Rmult_le_compat; lra. Qed.
  (** energy and momentum as the code has them *)
  Lemma energy_momentum : is_finite pm = true /\ 0 <= val pm <= 8200 /\ 0 < val p0 <= 8200 /\ val p0 <= 2 * e /\ val pm <= 2 * e /\
    Rabs (val p0 * val p0 - val pm * val pm - w * w) <= 19 * (u * (e * e)).
  Proof.
    destruct parts as (X & Y & Z & W & E & B0 & B1 & B2 & B3 & Bm). pose proof (u_small prec Hprec) as U. pose proof e_sq as EL.
    set (N := e * e + e * e * / 10000). assert (HN : / 1099511627776 <= N <= 67108864) by (unfold N; lra).
    destruct (close_shell N ltac:(unfold N; lra) ltac:(lra)) as (H1 & H2).
    destruct (pmag_square prec emax Hp He Hprec Hemax N HN p0 p1 p2 p3 m (proj1 C1) (proj1 C2) (proj1 C3) H1 H2) as (Fy & Y0 & Y1 & Y2 & _).
    assert (UN : u * N = u * (e * e) + u * (e * e) * / 10000) by (unfold N; ring).
    assert (Pp : 0 < val p0 /\ val p0 <= e + e * / 1000).
    { destruct C0 as (_ & K). apply Rabs_le_inv in K. rewrite (Rabs_pos_eq e) in K by lra. pose proof (eta_u prec emax Hprec Hemax) as T.
      assert (u * e <= / 1099511627776 * e) by (apply Rmult_le_compat_r; lra). assert (u * (dd * dd * 1048576) <= / 1099511627776 * (dd * dd * 1048576)) by (apply Rmult_le_compat_r; unfold dd; lra).
      assert (dd * dd * 1048576 <= / 1048576) by (unfold dd; lra). split; lra. }
    assert (Re : Rabs e = e) by (apply Rabs_pos_eq; lra). rewrite Re in *.
    assert (Pm : val pm <= e + e * / 1000).
    { apply Rsqr_incr_0_var; [|lra]. unfold Rsqr. eapply Rle_trans; [exact Y1|]. unfold N. replace ((e + e * / 1000) * (e + e * / 1000)) with (e * e * (1001 / 1000 * (1001 / 1000))) by field. lra. }
    split; [exact Fy|]. split; [lra|]. split; [lra|]. split; [lra|]. split; [lra|].
    pose proof (close_square _ _ C0 ltac:(lra)) as D0. pose proof (close_square _ _ C1 B1) as D1. pose proof (close_square _ _ C2 B2) as D2.
    pose proof (close_square _ _ C3 B3) as D3. apply Rabs_le_inv in Y2. rewrite UN in Y2.
    assert (DN : u * dd <= u * (e * e) * / 1048576) by (rewrite Rmult_assoc; apply Rmult_le_compat_l; [lra|unfold dd; lra]).
    assert (SU : u * (e * e) = u * (x * x) + u * (y * y) + u * (z * z) + u * (w * w)) by (rewrite HS; ring).
    assert (W0 : 0 <= u * (w * w)) by (apply Rmult_le_pos; lra).
    replace (u * (4 * (e * e) + e * e * / 1000000 + dd)) with (4 * (u * (e * e)) + u * (e * e) * / 1000000 + u * dd) in D0 by ring.
    replace (u * (4 * (x * x) + x * x * / 1000000 + dd)) with (4 * (u * (x * x)) + u * (x * x) * / 1000000 + u * dd) in D1 by ring.
    replace (u * (4 * (y * y) + y * y * / 1000000 + dd)) with (4 * (u * (y * y)) + u * (y * y) * / 1000000 + u * dd) in D2 by ring.
    replace (u * (4 * (z * z) + z * z * / 1000000 + dd)) with (4 * (u * (z * z)) + u * (z * z) * / 1000000 + u * dd) in D3 by ring.
    assert (UE : 0 <= u * (e * e)) by (apply Rmult_le_pos; lra).
    set (ue := u * (e * e)) in *. set (ux := u * (x * x)) in *. set (uy := u * (y * y)) in *. set (uz := u * (z * z)) in *. set (uw := u * (w * w)) in *. set (ud := u * dd) in *.
    apply Rabs_le. split; lra.
  Qed.
  (** sqrt(E+p) and sqrt(E-p) *)
  Definition rplus : F := rt (add p0 pm).
  Definition rminus : F := rt (sub p0 pm).
  Lemma root_le r a : near r (sqrt a) -> 0 <= a <= 32768 -> 0 <= val r -> 0 <= val r <= 256.
  Proof.
    intros Hr Ha H. pose proof (u_small prec Hprec) as U. pose proof (square_le prec emax Hprec Hemax _ _ 32768 Hr Ha ltac:(lra)) as E.
    split; [exact H|]. apply Rsqr_incr_0_var; [|lra]. unfold Rsqr. unfold dd in E. lra.
  Qed.
  Lemma plus_near : near (add p0 pm) (val p0 + val pm) /\ 0 <= val (add p0 pm) <= 32768 /\ near rplus (sqrt (val (add p0 pm))).
  Proof.
    destruct energy_momentum as (Fy & Y & P & _). pose proof (u_small prec Hprec) as U.
    assert (BG : Rabs (val p0 + val pm) <= big) by (change big with 1099511627776; rewrite Rabs_pos_eq; lra).
    assert (A := add_near prec emax Hp He Hprec Hemax p0 pm (proj1 C0) Fy BG). split; [exact A|].
    assert (PA := add_nonneg prec emax Hp He Hprec Hemax p0 pm (proj1 C0) Fy BG ltac:(lra)).
    assert (EA := near_le2 prec emax Hprec Hemax _ _ 16400 A ltac:(lra)). unfold dd in EA.
    split; [lra|]. apply sqrt_near; [exact (proj1 A)|exact PA].
  Qed.
  Lemma rplus_ok : is_finite rplus = true /\ 0 <= val rplus <= 256.
  Proof. destruct plus_near as (A & PA & B). split; [exact (proj1 B)|]. apply (root_le _ _ B PA). apply sqrt_nonneg. Qed.
  Hypothesis HW : 32 * (u * (e * e)) <= w * w.
  Lemma minus_near : 0 <= val p0 - val pm /\ near (sub p0 pm) (val p0 - val pm) /\ 0 <= val (sub p0 pm) <= 32768 /\ near rminus (sqrt (val (sub p0 pm))).
  Proof.
    destruct energy_momentum as (Fy & Y & P & _ & _ & D). pose proof (u_small prec Hprec) as U. pose proof e_sq as EL. apply Rabs_le_inv in D.
    assert (0 < u * (e * e)) by (apply Rmult_lt_0_compat; lra).
    assert (L : val pm <= val p0) by (apply Rsqr_incr_0_var; [unfold Rsqr|]; lra). split; [lra|].
    assert (BG : Rabs (val p0 - val pm) <= big) by (change big with 1099511627776; rewrite Rabs_pos_eq; lra).
    assert (A := sub_near prec emax Hp He Hprec Hemax p0 pm (proj1 C0) Fy BG). split; [exact A|].
    assert (PA := sub_nonneg prec emax Hp He Hprec Hemax p0 pm (proj1 C0) Fy BG ltac:(lra)).
    assert (EA := near_le2 prec emax Hprec Hemax _ _ 16400 A ltac:(lra)). unfold dd in EA.
    split; [lra|]. apply sqrt_near; [exact (proj1 A)|exact PA].
  Qed.
  Lemma rminus_ok : is_finite rminus = true /\ 0 <= val rminus <= 256.
  Proof. destruct minus_near as (_ & A & PA & B). split; [exact (proj1 B)|]. apply (root_le _ _ B PA). apply sqrt_nonneg. Qed.
  (** their product is the mass *)
  Lemma roots_mass : Rabs (val rplus * val rminus * (val rplus * val rminus) - w * w) <= 32 * (u * (e * e)).
  Proof.
    destruct energy_momentum as (Fy & Y & P & Q1 & Q2 & D). pose proof (u_small prec Hprec) as U. pose proof e_sq as EL.
    destruct plus_near as (A1 & A2 & A3). destruct minus_near as (B0 & B1 & B2 & B3). destruct parts as (X1 & Y1 & Z1 & W1 & E1 & _).
    pose proof (root_square _ _ _ A1 ltac:(lra) (proj1 A2) A3) as R1. pose proof (root_square _ _ _ B1 ltac:(lra) (proj1 B2) B3) as R2.
    set (a := val p0 + val pm) in *. set (b := val p0 - val pm) in *. set (r := val rplus * val rplus) in *. set (s := val rminus * val rminus) in *.
    replace (val rplus * val rminus * (val rplus * val rminus)) with (r * s) by (unfold r, s; ring).
    assert (AB : val p0 * val p0 - val pm * val pm = a * b) by (unfold a, b; ring). rewrite AB in D. apply Rabs_le_inv in D.
    assert (a0 : 0 < a) by (unfold a; lra). assert (a4 : a <= 4 * e) by (unfold a; lra). assert (b4 : b <= 2 * e) by (unfold b; lra).
    assert (s0 : 0 <= s) by apply Rle_0_sqr.
    assert (UE : 0 < u * (e * e) <= / 1099511627776 * (e * e)) by (split; [apply Rmult_lt_0_compat; lra|apply Rmult_le_compat_r; lra]).
    assert (UD : 0 < u * dd) by (unfold dd; lra).
    assert (ab : 0 <= a * b <= e * e + e * e * / 1000) by (split; [apply Rmult_le_pos; lra|lra]).
    assert (uab : 0 <= u * (a * b) <= u * (e * e) + u * (e * e) * / 1000).
    { split; [apply Rmult_le_pos; lra|]. replace (u * (e * e) + u * (e * e) * / 1000) with (u * (e * e + e * e * / 1000)) by ring. apply Rmult_le_compat_l; lra. }
    assert (de : u * dd * e <= u * (e * e) * / 1000000).
    { replace (u * (e * e) * / 1000000) with (u * (e * / 1000000) * e) by ring. apply Rmult_le_compat_r; [lra|]. apply Rmult_le_compat_l; [lra|]. unfold dd. lra. }
    assert (ub : 0 <= u * b <= / 1099511627776 * b) by (split; [apply Rmult_le_pos; lra|apply Rmult_le_compat_r; lra]).
    assert (sb : s <= b + b * / 1000 + 3 * (u * dd)) by lra.
    replace (r * s - w * w) with ((r - a) * s + a * (s - b) + (a * b - w * w)) by ring.
    assert (K1 : Rabs ((r - a) * s) <= (3 * (u * a) + u * a * / 1000 + 3 * (u * dd)) * (b + b * / 1000 + 3 * (u * dd))).
    { rewrite Rabs_mult, (Rabs_pos_eq s s0). apply Rmult_le_compat; [apply Rabs_pos|exact s0|apply Rabs_le; lra|exact sb]. }
    assert (K2 : Rabs (a * (s - b)) <= a * (3 * (u * b) + u * b * / 1000 + 3 * (u * dd))).
    { rewrite Rabs_mult, (Rabs_pos_eq a) by lra. apply Rmult_le_compat_l; [lra|]. apply Rabs_le. lra. }
    set (d := u * dd) in *.
    assert (ua : 0 <= u * a <= / 1099511627776 * a) by (split; [apply Rmult_le_pos; lra|apply Rmult_le_compat_r; lra]).
    assert (da : 0 <= d * a <= 4 * (d * e)) by (split; [apply Rmult_le_pos; lra|replace (4 * (d * e)) with (d * (4 * e)) by ring; apply Rmult_le_compat_l; lra]).
    assert (db : 0 <= d * b <= 2 * (d * e)) by (split; [apply Rmult_le_pos; lra|replace (2 * (d * e)) with (d * (2 * e)) by ring; apply Rmult_le_compat_l; lra]).
    assert (dua : d * (u * a) <= d * a) by (apply Rmult_le_compat_l; lra).
    assert (dl : d <= e). { unfold d, dd. lra. }
    assert (d2 : d * d <= d * e) by (apply Rmult_le_compat_l; lra).
    replace ((3 * (u * a) + u * a * / 1000 + 3 * d) * (b + b * / 1000 + 3 * d)) with
      ((3 + / 1000) * (1 + / 1000) * (u * (a * b)) + 3 * (3 + / 1000) * (d * (u * a)) + 3 * (1 + / 1000) * (d * b) + 9 * (d * d)) in K1 by ring.
    replace (a * (3 * (u * b) + u * b * / 1000 + 3 * d)) with ((3 + / 1000) * (u * (a * b)) + 3 * (d * a)) in K2 by ring.
    apply Rabs_le_inv in K1. apply Rabs_le_inv in K2. apply Rabs_le.
    set (t1 := (r - a) * s) in *. set (t2 := a * (s - b)) in *. set (t3 := a * b) in *. set (v1 := u * t3) in *. set (v2 := u * (e * e)) in *.
    set (v3 := d * e) in *. set (v4 := d * b) in *. set (v5 := d * a) in *. set (v6 := d * (u * a)) in *. set (v7 := d * d) in *. set (ww := w * w) in *.
    clearbody t1 t2 t3 v1 v2 v3 v4 v5 v6 v7 ww. split; lra.
  Qed.
End Close.
