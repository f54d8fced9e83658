(** * Rounding errors of the operations of IEEE.v

    Used in proofs only: for operands and results of moderate size nothing overflows, and each
    operation has a relative error of at most 2^-prec and an absolute error of at most the smallest
    positive number. *)
From Coq Require Import ZArith Reals Lra Lia.
From Flocq Require Import Core BinarySingleNaN Relative.
From Verif Require Import Base Scalar IEEE.
Open Scope R_scope.

Section Err.
  Variables prec emax : Z.
  Context (Hp : Prec_gt_0 prec) (He : Prec_lt_emax prec emax).
  Notation F := (binary_float prec emax).
  Hypothesis Hprec : (40 <= prec)%Z.
  Hypothesis Hemax : (3 * prec <= emax)%Z.
  (** half a unit in the last place of 1, and a bound of the error near 0 *)
  Definition uu : R := bpow radix2 (- prec).
  Definition eta : R := bpow radix2 (3 - emax - prec).
  Definition big : R := bpow radix2 40.
  Notation rnd := (round radix2 (SpecFloat.fexp prec emax) (round_mode mode_NE)).

  Lemma uu_pos : 0 < uu. Proof. apply bpow_gt_0. Qed.
  Lemma eta_pos : 0 < eta. Proof. apply bpow_gt_0. Qed.
  Lemma uu_small : uu <= bpow radix2 (-40). Proof. apply bpow_le. lia. Qed.
  Lemma eta_small : eta <= uu * bpow radix2 (-40). Proof. unfold uu, eta. rewrite <- bpow_plus. apply bpow_le. lia. Qed.
  Lemma eta_tiny : eta <= uu * bpow radix2 (-100). Proof. unfold uu, eta. rewrite <- bpow_plus. apply bpow_le. lia. Qed.

  Lemma rnd_err x : Rabs (rnd x - x) <= uu * Rabs x + eta.
  Proof.
    destruct (error_N_FLT radix2 (SpecFloat.emin prec emax) prec Hp (fun n => negb (Z.even n)) x) as (d & h & H1 & H2 & _ & E).
    change (rnd x) with (round radix2 (FLT_exp (SpecFloat.emin prec emax) prec) (Znearest (fun n => negb (Z.even n))) x). rewrite E.
    replace (x * (1 + d) + h - x) with (d * x + h) by ring.
    eapply Rle_trans; [apply Rabs_triang|]. rewrite Rabs_mult. apply Rplus_le_compat.
    - apply Rmult_le_compat_r; [apply Rabs_pos|]. eapply Rle_trans; [exact H1|]. unfold uu.
      change (/ 2) with (/ IZR 2). replace (/ 2) with (bpow radix2 (-1)) by reflexivity. rewrite <- bpow_plus. apply bpow_le. lia.
    - eapply Rle_trans; [exact H2|]. unfold eta. replace (/ 2) with (bpow radix2 (-1)) by reflexivity. rewrite <- bpow_plus. apply bpow_le.
      unfold SpecFloat.emin. lia.
  Qed.
  Lemma rnd_fits x : Rabs x <= big -> Rlt_bool (Rabs (rnd x)) (bpow radix2 emax) = true.
  Proof.
    intros H. apply Rlt_bool_true. pose proof (rnd_err x) as E. pose proof uu_small as U. pose proof eta_small as T. pose proof uu_pos as U0.
    assert (A : Rabs (rnd x) <= Rabs x + (uu * Rabs x + eta)).
    { replace (rnd x) with (x + (rnd x - x)) at 1 by ring. eapply Rle_trans; [apply Rabs_triang|]. apply Rplus_le_compat_l. exact E. }
    eapply Rle_lt_trans; [exact A|]. apply Rlt_le_trans with (bpow radix2 42); [|apply bpow_le; lia].
    unfold big in H. change (bpow radix2 (-40)) with (/ IZR (2 ^ 40)) in U, T. change (bpow radix2 40) with (IZR (2 ^ 40)) in H. change (bpow radix2 42) with (IZR (2 ^ 42)).
    assert (uu * Rabs x <= / IZR (2 ^ 40) * IZR (2 ^ 40)) by (apply Rmult_le_compat; try assumption; [lra|apply Rabs_pos]).
    assert (uu * / IZR (2 ^ 40) <= / IZR (2 ^ 40) * / IZR (2 ^ 40)) by (apply Rmult_le_compat_r; [apply Rlt_le, Rinv_0_lt_compat; lra|exact U]).
    lra.
  Qed.

  (** an operation gives the exact value [x] up to rounding *)
  Definition near (z : F) (x : R) : Prop := is_finite z = true /\ Rabs (B2R z - x) <= uu * Rabs x + eta.
  Lemma mul_near (x y : F) : is_finite x = true -> is_finite y = true -> Rabs (B2R x * B2R y) <= big -> near (fmul prec emax Hp He x y) (B2R x * B2R y).
  Proof.
    intros Fx Fy H. pose proof (Bmult_correct prec emax Hp He mode_NE x y) as K. rewrite (rnd_fits _ H) in K. destruct K as (K1 & K2 & _).
    unfold near, fmul. split; [rewrite K2, Fx, Fy; reflexivity|]. rewrite K1. apply rnd_err.
  Qed.
  Lemma add_near (x y : F) : is_finite x = true -> is_finite y = true -> Rabs (B2R x + B2R y) <= big -> near (fadd prec emax Hp He x y) (B2R x + B2R y).
  Proof.
    intros Fx Fy H. pose proof (Bplus_correct prec emax Hp He mode_NE x y Fx Fy) as K. rewrite (rnd_fits _ H) in K. destruct K as (K1 & K2 & _).
    unfold near, fadd. split; [exact K2|]. rewrite K1. apply rnd_err.
  Qed.
  Lemma sub_near (x y : F) : is_finite x = true -> is_finite y = true -> Rabs (B2R x - B2R y) <= big -> near (fsub prec emax Hp He x y) (B2R x - B2R y).
  Proof.
    intros Fx Fy H. pose proof (Bminus_correct prec emax Hp He mode_NE x y Fx Fy) as K. rewrite (rnd_fits _ H) in K. destruct K as (K1 & K2 & _).
    unfold near, fsub. split; [exact K2|]. rewrite K1. apply rnd_err.
  Qed.
  Lemma sqrt_near (x : F) : is_finite x = true -> 0 <= B2R x -> near (fsqrt prec emax Hp He x) (sqrt (B2R x)).
  Proof.
    intros Fx H. destruct (Bsqrt_correct prec emax Hp He mode_NE x) as (K1 & K2 & _). unfold near, fsqrt. split.
    - rewrite K2. destruct x as [s|s| |s m ex B]; try reflexivity; try discriminate Fx. destruct s; [|reflexivity].
      exfalso. cbn [B2R cond_Zopp] in H. apply (Rlt_not_le _ _ (F2R_lt_0 radix2 (Float radix2 (Z.neg m) ex) ltac:(reflexivity)) H).
    - rewrite K1. apply rnd_err.
  Qed.
  Lemma div_near (x y : F) : is_finite x = true -> B2R y <> 0 -> Rabs (B2R x / B2R y) <= big -> near (fdiv prec emax Hp He x y) (B2R x / B2R y).
  Proof.
    intros Fx Fy H. pose proof (Bdiv_correct prec emax Hp He mode_NE x y Fy) as K. rewrite (rnd_fits _ H) in K. destruct K as (K1 & K2 & _).
    unfold near, fdiv. split; [rewrite K2; exact Fx|]. rewrite K1. apply rnd_err.
  Qed.
  Lemma norm_near (n e : Z) (s : bool) : Rabs (F2R (Float radix2 n e)) <= big -> near (binary_normalize prec emax Hp He mode_NE n e s) (F2R (Float radix2 n e)).
  Proof.
    intros H. pose proof (binary_normalize_correct prec emax Hp He mode_NE n e s) as K. cbv zeta in K. rewrite (rnd_fits _ H) in K. destruct K as (K1 & K2 & _).
    split; [exact K2|]. rewrite K1. apply rnd_err.
  Qed.
  (** not negative if the exact value is not *)
  Lemma rnd_nonneg x : 0 <= x -> 0 <= rnd x.
  Proof. intros H. rewrite <- (round_0 radix2 (SpecFloat.fexp prec emax) (round_mode mode_NE)). apply round_le; [apply (FLT_exp_valid (SpecFloat.emin prec emax) prec)|apply valid_rnd_N|exact H]. Qed.
  Lemma mul_nonneg (x y : F) : Rabs (B2R x * B2R y) <= big -> 0 <= B2R x * B2R y -> 0 <= B2R (fmul prec emax Hp He x y).
  Proof. intros H P. pose proof (Bmult_correct prec emax Hp He mode_NE x y) as K. rewrite (rnd_fits _ H) in K. destruct K as (K1 & _). unfold fmul. rewrite K1. apply rnd_nonneg, P. Qed.
  Lemma add_nonneg (x y : F) : is_finite x = true -> is_finite y = true -> Rabs (B2R x + B2R y) <= big -> 0 <= B2R x + B2R y -> 0 <= B2R (fadd prec emax Hp He x y).
  Proof. intros Fx Fy H P. pose proof (Bplus_correct prec emax Hp He mode_NE x y Fx Fy) as K. rewrite (rnd_fits _ H) in K. destruct K as (K1 & _). unfold fadd. rewrite K1. apply rnd_nonneg, P. Qed.
  Lemma sub_nonneg (x y : F) : is_finite x = true -> is_finite y = true -> Rabs (B2R x - B2R y) <= big -> 0 <= B2R x - B2R y -> 0 <= B2R (fsub prec emax Hp He x y).
  Proof. intros Fx Fy H P. pose proof (Bminus_correct prec emax Hp He mode_NE x y Fx Fy) as K. rewrite (rnd_fits _ H) in K. destruct K as (K1 & _). unfold fsub. rewrite K1. apply rnd_nonneg, P. Qed.
  Lemma sqrt_nonneg (x : F) : 0 <= B2R (fsqrt prec emax Hp He x).
  Proof. destruct (Bsqrt_correct prec emax Hp He mode_NE x) as (K1 & _). unfold fsqrt. rewrite K1. apply rnd_nonneg, sqrt_pos. Qed.
End Err.
