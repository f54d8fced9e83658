(** * Properties that are about NaN: C29, C34 and C40 in floating-point arithmetic *)
From Coq Require Import ZArith QArith Reals Lra List.
From Flocq Require Import Core BinarySingleNaN.
From Verif Require Import Base Scalar Linear Utilities Harness IEEE RealNum UtilReal PropsHarness.
Import ListNotations.
Close Scope Q_scope. Close Scope Z_scope.

Section Nan.
  Variables prec emax : Z.
  Context (Hp : Prec_gt_0 prec) (He : Prec_lt_emax prec emax).
  Notation F := (binary_float prec emax).
  Notation "x +! y" := (fadd prec emax Hp He x y) (at level 50, left associativity).
  Notation "x *! y" := (fmul prec emax Hp He x y) (at level 40, left associativity).
  Lemma add_nan_r (x y : F) : is_nan y = true -> is_nan (x +! y) = true.
  Proof. destruct y; try discriminate. intros _. destruct x; reflexivity. Qed.
  Lemma add_nan_l (x y : F) : is_nan x = true -> is_nan (x +! y) = true.
  Proof. destruct x; try discriminate. reflexivity. Qed.
  Lemma mul_nan_l (x y : F) : is_nan x = true -> is_nan (x *! y) = true.
  Proof. destruct x; try discriminate. reflexivity. Qed.
  Lemma gt_nan (x y : F) : is_nan x = true -> fgt prec emax x y = false.
  Proof. destruct x; try discriminate. intros _. destruct y as [[]|[]| |[]]; reflexivity. Qed.
  (** a row with a NaN among its last three entries *)
  Lemma row_nan (st : bool) lm (r p : vec4 F) :
    is_nan (v_1 r) = true \/ is_nan (v_2 r) = true \/ is_nan (v_3 r) = true ->
    is_nan (row_times (num:=FN st prec emax Hp He lm) r p) = true.
  Proof.
    unfold row_times. cbn [tadd tmul FN].
    intros [H|[H|H]].
    - apply add_nan_l, add_nan_l, add_nan_r, mul_nan_l, H.
    - apply add_nan_l, add_nan_r, mul_nan_l, H.
    - apply add_nan_r, mul_nan_l, H.
  Qed.
End Nan.

(** ** C29 *)
(** REFUTED: boosting by zero velocity (with zeros of any sign) turns the three spatial
    components of every momentum into NaN, in long double and in double. *)
Theorem C29_zero_boost_refuted :
  (forall st lm (p : mom (LD st lm)) (sx sy sz : bool),
     let q := boost_momentum (num:=LD st lm) p (V3 (B754_zero sx) (B754_zero sy) (B754_zero sz)) in
     is_nan (v_1 q) = true /\ is_nan (v_2 q) = true /\ is_nan (v_3 q) = true) /\
  (forall st lm (p : mom (DD st lm)) (sx sy sz : bool),
     let q := boost_momentum (num:=DD st lm) p (V3 (B754_zero sx) (B754_zero sy) (B754_zero sz)) in
     is_nan (v_1 q) = true /\ is_nan (v_2 q) = true /\ is_nan (v_3 q) = true).
Proof.
  split; intros st lm p sx sy sz q; unfold q, boost_momentum, mat_times; cbn [v_1 v_2 v_3];
    (split; [|split]); apply row_nan; unfold boost_matrix; cbn [v_1 v_2 v_3 x_0 x_1 x_2]; left;
    destruct sx, sy, sz; vm_compute; reflexivity.
Qed.
Print Assumptions C29_zero_boost_refuted.
Example C29_example : forall lm : libm (binary_float 64 16384),
  let one : T (LD true lm) := fof 64 16384 Hp64 He64 1 in
  is_nan (v_3 (boost_momentum (num:=LD true lm) (V4 one one one one)
                 (V3 (B754_zero false) (B754_zero false) (B754_zero false)))) = true /\
  is_nan one = false.
Proof. intros lm one. split; [apply (proj1 C29_zero_boost_refuted)|vm_compute; reflexivity]. Qed.

(** What does hold, in exact arithmetic: the formula tends to the identity as the velocity
    tends to zero.  Missing: zero itself, where the code divides by zero. *)
Open Scope R_scope.
Theorem C29_small_boost_partial :
  forall st eps (p : vec4 R) (v : vec3 R),
  let v2 := x_0 v * x_0 v + x_1 v * x_1 v + x_2 v * x_2 v in
  0 < v2 <= 3 / 4 ->
  let q := boost_momentum (num:=RN st eps) p v in
  let bound := 2 * sqrt v2 * (Rabs (v_0 p) + Rabs (v_1 p) + Rabs (v_2 p) + Rabs (v_3 p)) in
  Rabs (v_0 q - v_0 p) <= bound /\ Rabs (v_1 q - v_1 p) <= bound /\
  Rabs (v_2 q - v_2 p) <= bound /\ Rabs (v_3 q - v_3 p) <= bound.
Proof.
  intros st eps p v v2 Hv q bound. unfold q. rewrite boost_unfold. cbv zeta. cbn [v_0 v_1 v_2 v_3].
  destruct (gam_facts v) as (G & K & G1); [change (norm3 v) with v2; lra|].
  change (norm3 v) with v2 in *. set (n := sqrt v2) in *.
  assert (Hn : n * n = v2) by (apply sqrt_sqrt; lra).
  assert (Hn0 : 0 < n) by (apply sqrt_lt_R0; lra).
  assert (Hn1 : n <= 1) by nra.
  revert G K G1. generalize (gam v) (kap v). intros g k G K G1.
  assert (Hg : g <= 2) by nra.
  assert (K2 : k * (g + 1) = g * g).
  { apply (Rmult_eq_reg_r v2); [|lra]. replace (k * (g + 1) * v2) with (k * v2 * (g + 1)) by ring. rewrite K. lra. }
  assert (Hk : 0 <= k <= 2) by nra.
  assert (V : forall x, x * x <= v2 -> Rabs x <= n).
  { intros x Hx. apply Rabs_le. nra. }
  pose proof (Rle_0_sqr (x_0 v)) as S0. pose proof (Rle_0_sqr (x_1 v)) as S1. pose proof (Rle_0_sqr (x_2 v)) as S2.
  unfold Rsqr in S0, S1, S2.
  assert (V0 : Rabs (x_0 v) <= n) by (apply V; unfold v2; lra).
  assert (V1 : Rabs (x_1 v) <= n) by (apply V; unfold v2; lra).
  assert (V2 : Rabs (x_2 v) <= n) by (apply V; unfold v2; lra).
  assert (M : forall x y a, Rabs x <= a -> Rabs (x * y) <= a * Rabs y).
  { intros x y a H. rewrite Rabs_mult. apply Rmult_le_compat_r; [apply Rabs_pos|exact H]. }
  set (d := dot3 v (sp3 p)).
  assert (D : Rabs d <= n * (Rabs (v_1 p) + Rabs (v_2 p) + Rabs (v_3 p))).
  { unfold d, dot3, sp3. cbn [x_0 x_1 x_2].
    pose proof (M _ (v_1 p) _ V0). pose proof (M _ (v_2 p) _ V1). pose proof (M _ (v_3 p) _ V2).
    eapply Rle_trans; [apply Rabs_triang|].
    pose proof (Rabs_triang (x_0 v * v_1 p) (x_1 v * v_2 p)). lra. }
  pose proof (Rabs_pos (v_0 p)). pose proof (Rabs_pos (v_1 p)). pose proof (Rabs_pos (v_2 p)). pose proof (Rabs_pos (v_3 p)).
  set (S3 := Rabs (v_1 p) + Rabs (v_2 p) + Rabs (v_3 p)) in *.
  assert (HS : 0 <= S3) by (unfold S3; lra).
  assert (BE : bound = 2 * n * Rabs (v_0 p) + 2 * n * S3) by (unfold bound, S3; ring).
  rewrite BE. pose proof (Rabs_pos d) as D0.
  assert (W : forall x, Rabs x <= n -> Rabs (k * d * x - g * v_0 p * x) <= 2 * n * Rabs (v_0 p) + 2 * n * S3).
  { intros x Hx. pose proof (Rabs_pos x) as X0.
    unfold Rminus. eapply Rle_trans; [apply Rabs_triang|]. rewrite Rabs_Ropp, !Rabs_mult.
    rewrite (Rabs_pos_eq k), (Rabs_pos_eq g) by lra.
    assert (k * Rabs d * Rabs x <= 2 * n * S3).
    { apply Rle_trans with (2 * (n * S3) * 1); [|lra].
      apply Rmult_le_compat; [apply Rmult_le_pos; lra|exact X0| |lra].
      apply Rmult_le_compat; lra. }
    assert (g * Rabs (v_0 p) * Rabs x <= 2 * Rabs (v_0 p) * n).
    { apply Rmult_le_compat; [apply Rmult_le_pos; lra|exact X0| |lra].
      apply Rmult_le_compat; lra. }
    lra. }
  split; [|split; [|split]].
  - replace (g * (v_0 p - d) - v_0 p) with ((g - 1) * v_0 p - g * d) by ring.
    unfold Rminus at 1. eapply Rle_trans; [apply Rabs_triang|]. rewrite Rabs_Ropp, !Rabs_mult.
    rewrite (Rabs_pos_eq (g - 1)), (Rabs_pos_eq g) by lra.
    assert (g - 1 <= 2 * n) by nra.
    assert ((g - 1) * Rabs (v_0 p) <= 2 * n * Rabs (v_0 p)) by (apply Rmult_le_compat_r; lra).
    assert (g * Rabs d <= 2 * (n * S3)) by (apply Rmult_le_compat; lra). lra.
  - replace (v_1 p + k * d * x_0 v - g * v_0 p * x_0 v - v_1 p) with (k * d * x_0 v - g * v_0 p * x_0 v) by ring. apply W, V0.
  - replace (v_2 p + k * d * x_1 v - g * v_0 p * x_1 v - v_2 p) with (k * d * x_1 v - g * v_0 p * x_1 v) by ring. apply W, V1.
  - replace (v_3 p + k * d * x_2 v - g * v_0 p * x_2 v - v_3 p) with (k * d * x_2 v - g * v_0 p * x_2 v) by ring. apply W, V2.
Qed.
Print Assumptions C29_small_boost_partial.
Example C29_small_example : forall st eps,
  Rabs (v_0 (boost_momentum (num:=RN st eps) (V4 5 3 4 0) (V3 (1/100) 0 0)) - 5) <= 24 / 100.
Proof.
  intros st eps.
  pose proof (C29_small_boost_partial st eps (V4 5 3 4 0) (V3 (1/100) 0 0)) as H. cbn [x_0 x_1 x_2 v_0] in H.
  destruct H as [H _]; [lra|]. eapply Rle_trans; [exact H|]. cbn [v_0 v_1 v_2 v_3].
  replace (1 / 100 * (1 / 100) + 0 * 0 + 0 * 0) with ((1 / 100) * (1 / 100)) by ring.
  rewrite sqrt_square by lra. rewrite Rabs_R0, !Rabs_pos_eq by lra. lra.
Qed.
Close Scope R_scope. Open Scope type_scope.

(** ** C34 *)
(** REFUTED in floating point in a second way: NaN compares equal to everything (in every
    C library whose hypot(NaN,NaN) is NaN), so 0 == NaN == 1 while 0 != 1. *)
Theorem C34_nan_refuted :
  forall st (prec emax : Z) (Hp : Prec_gt_0 prec) (He : Prec_lt_emax prec emax) lm,
    let num := FN st prec emax Hp He lm in
    is_nan (m_hypot lm B754_nan B754_nan) = true ->
    (exists u : cvector num, forall w : cvector num, cv_eqb u w = true /\ cv_eqb w u = true) /\
    (exists u : cmatrix num, forall w : cmatrix num, cm_eqb u w = true /\ cm_eqb w u = true).
Proof.
  intros st prec emax Hp He lm num HH.
  pose (nan := (B754_nan, B754_nan) : CX num).
  assert (A : forall z : CX num, csub nan z = nan) by reflexivity.
  assert (B : forall z : CX num, csub z nan = nan) by (intros [[] []]; reflexivity).
  assert (G : forall t : T num, tgtb (cabs nan) t = false) by (intros t; apply gt_nan, HH).
  split.
  - exists (CV nan nan). intros w. unfold cv_eqb. cbn [cv0 cv1]. rewrite !A, !B, !G. split; reflexivity.
  - exists (CM nan nan nan nan). intros w. unfold cm_eqb. cbn [m00 m01 m10 m11]. rewrite !A, !B, !G. split; reflexivity.
Qed.
Print Assumptions C34_nan_refuted.
Example C34_nan_example :
  let lm := mkLibm (binary_float 64 16384) (fun x => x) (fun x => x) (fun x _ => x) (fadd 64 16384 Hp64 He64) in
  is_nan (m_hypot lm B754_nan B754_nan) = true.
Proof. reflexivity. Qed.

(** ** C40 *)
(** REFUTED in floating point: whatever finite amplitudes the process computes, a data
    table of NaNs and infinities passes the test: the harness answers 0 although no point
    agrees. *)
Theorem C40_nonfinite_data_refuted :
  forall st (prec emax : Z) (Hp : Prec_gt_0 prec) (He : Prec_lt_emax prec emax) lm,
    let num := FN st prec emax Hp He lm in
    forall (S : Type) (set_momenta : mom num -> mom num -> mom num -> mom num -> ST S unit) (amp2 : ST S (T num))
           (m1 m2 m3 m4 Pin : T num) (data : list (T num)) (s : S) (g : stream num) (amps : list (T num)),
    length data = 20%nat ->
    Forall (fun d : T num => is_finite d = false) data ->
    (* the amplitudes at the twenty points are all finite *)
    fst (amplitudes set_momenta amp2
      (map (fun j => set_test_momenta (set_test_initializations m1 m2 m3 m4 Pin) Pin
              (tD (dsub (dQ (95 # 100)) (dmul (dQ (1 # 10)) (dQ (inject_Z (Z.of_nat j))))))) (seq 0 20)) s) = Ok amps ->
    Forall (fun a : T num => is_finite a = true) amps ->
    fst (test_2to2_amp2 set_momenta amp2 m1 m2 m3 m4 Pin data (s, g)) = Ok 0%Z.
Proof.
  intros st prec emax Hp He lm num S set_momenta amp2 m1 m2 m3 m4 Pin data s g amps HL HD HA HF.
  assert (Z : failures (num:=num) (1 # 1000000000) amps data = 0%Z).
  2:{ pose proof (C40_lab_frame num S set_momenta amp2 m1 m2 m3 m4 Pin data s g HL) as E. cbv zeta in E.
      rewrite E. cbn [fst]. etransitivity; [apply (f_equal (omap _) HA)|]. exact (f_equal Ok Z). }
  clear HA HL.
  revert data HD. induction HF as [|a amps Ha HF IH]; intros [|d data] HD; try reflexivity.
  cbn [failures]. inversion HD as [|? ? Hd HD']. subst. rewrite (IH data HD').
  assert (K : differs (num:=num) (1 # 1000000000) a d = false); [|now rewrite K].
  unfold differs.
  assert (I : tisinf a = false) by (destruct a; try discriminate; reflexivity).
  assert (N : tisnan a = false) by (destruct a; try discriminate; reflexivity).
  rewrite I, N. cbn [orb]. apply andb_false_iff.
  destruct d as [sd|sd| |sd md ed Bd]; try discriminate.
  - right. apply gt_nan. destruct a as [sa|sa| |sa ma ea Ba]; try discriminate; reflexivity.
  - left. apply gt_nan. destruct a as [sa|sa| |sa ma ea Ba]; try discriminate; reflexivity.
Qed.
Print Assumptions C40_nonfinite_data_refuted.
Example C40_nonfinite_example : forall (lm : libm (binary_float 64 16384)) (g : stream (LD true lm)),
  let one : T (LD true lm) := fof 64 16384 Hp64 He64 1 in
  fst (test_2to2_amp2 (num:=LD true lm) (S:=unit) (fun _ _ _ _ => sret tt) (sret one) one one one one one
         (repeat (B754_nan : T (LD true lm)) 10 ++ repeat (B754_infinity true : T (LD true lm)) 10) (tt, g)) = Ok 0%Z.
Proof.
  intros lm g one.
  apply (C40_nonfinite_data_refuted true 64 16384 Hp64 He64 lm unit (fun _ _ _ _ => sret tt) (sret one)
            one one one one one _ tt g (repeat one 20)).
  - reflexivity.
  - repeat constructor.
  - reflexivity.
  - assert (F : is_finite one = true) by (vm_compute; reflexivity). repeat (constructor; [exact F|]). constructor.
Qed.
