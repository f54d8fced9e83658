(** * The exact real instance

    [ldouble] and [double] are the real numbers, [cdouble] Coquelicot's complex
    numbers; nothing rounds, there is no infinity and no NaN.  [eps] is the value of
    numeric_limits<ldouble>::epsilon() and is left arbitrary. *)
From Coq Require Import Reals Lra QArith Qreals.
From Coquelicot Require Import Complex.
From Verif Require Import Base Scalar.
Open Scope R_scope.

(** atan2(y,x) for real arguments (C standard 7.12.4.4; the real line has one zero, so
    the cases distinguished by the sign of a zero are the ones of +0). *)
Definition Ratan2 (y x : R) : R :=
  if Rlt_dec 0 x then atan (y / x)
  else if Rlt_dec x 0 then
         (if Rle_dec 0 y then atan (y / x) + PI else atan (y / x) - PI)
       else if Rlt_dec 0 y then PI / 2
            else if Rlt_dec y 0 then - (PI / 2) else 0.

Definition Rgtb (x y : R) : bool := if Rlt_dec y x then true else false.
Definition Rgeb (x y : R) : bool := if Rle_dec y x then true else false.
Definition Reqb (x y : R) : bool := if Req_EM_T x y then true else false.

Definition RN (st : bool) (eps : R) : Num := {|
  T := R; D := R; CX := C; strict := st;
  tZ := IZR; tD := fun x => x;
  tadd := Rplus; tsub := Rminus; tmul := Rmult; tdiv := Rdiv; topp := Ropp;
  tsqrt := sqrt; tabs := Rabs; tcos := cos; tsin := sin; tatan2 := Ratan2;
  tpow2 := fun x => x * x;
  teqb := Reqb; tgtb := Rgtb; tgeb := Rgeb;
  tisinf := fun _ => false; tisnan := fun _ => false;
  teps := eps;
  dQ := Q2R; dadd := Rplus; dsub := Rminus; dmul := Rmult; ddiv := Rdiv; dopp := Ropp;
  dsqrt := sqrt;
  cmk := fun a b => (a, b); cre := fst; cim := snd;
  cadd := Cplus; csub := Cminus; cmul := Cmult; cdiv := Cdiv; copp := Copp;
  cconj := Cconj; cabs := Cmod;
  caddt := fun z t => Cplus z (RtoC t); csubt := fun z t => Cminus z (RtoC t);
  cmult := fun z t => Cmult z (RtoC t); cdivt := fun z t => Cdiv z (RtoC t);
  taddc := fun t z => Cplus (RtoC t) z; tsubc := fun t z => Cminus (RtoC t) z;
  tmulc := fun t z => Cmult (RtoC t) z; tdivc := fun t z => Cdiv (RtoC t) z;
  cpolar := fun r t => (r * cos t, r * sin t)
|}.

Lemma Rgtb_true x y : Rgtb x y = true <-> x > y.
Proof. unfold Rgtb; destruct (Rlt_dec y x); split; intros; try discriminate; auto; lra. Qed.
Lemma Rgtb_false x y : Rgtb x y = false <-> x <= y.
Proof. unfold Rgtb; destruct (Rlt_dec y x); split; intros; try discriminate; auto; lra. Qed.
Lemma Rgeb_true x y : Rgeb x y = true <-> x >= y.
Proof. unfold Rgeb; destruct (Rle_dec y x); split; intros; try discriminate; auto; lra. Qed.
Lemma Rgeb_false x y : Rgeb x y = false <-> x < y.
Proof. unfold Rgeb; destruct (Rle_dec y x); split; intros; try discriminate; auto; lra. Qed.
Lemma Reqb_true x y : Reqb x y = true <-> x = y.
Proof. unfold Reqb; destruct (Req_EM_T x y); split; intros; try discriminate; auto; contradiction. Qed.
Lemma Reqb_false x y : Reqb x y = false <-> x <> y.
Proof. unfold Reqb; destruct (Req_EM_T x y); split; intros; try discriminate; auto; contradiction. Qed.
Lemma Reqb_refl x : Reqb x x = true.
Proof. apply Reqb_true; reflexivity. Qed.

(** ** atan2 *)
Lemma sqrt_factor x z : sqrt (x * x + (z * x) * (z * x)) = Rabs x * sqrt (1 + z²).
Proof.
  replace (x * x + (z * x) * (z * x)) with (x² * (1 + z²)) by (unfold Rsqr; ring).
  rewrite sqrt_mult_alt by apply Rle_0_sqr. rewrite sqrt_Rsqr_abs. reflexivity.
Qed.
Lemma sqrt_1_pos z : 0 < sqrt (1 + z²).
Proof. apply sqrt_lt_R0. pose proof (Rle_0_sqr z). lra. Qed.

Lemma atan2_polar y x :
  sqrt (x * x + y * y) * cos (Ratan2 y x) = x /\ sqrt (x * x + y * y) * sin (Ratan2 y x) = y.
Proof.
  unfold Ratan2. destruct (Rlt_dec 0 x) as [Hx|Hx].
  - set (z := y / x). assert (Hy : y = z * x) by (unfold z; field; lra).
    clearbody z. subst y. rewrite sqrt_factor, cos_atan, sin_atan, Rabs_pos_eq by lra.
    pose proof (sqrt_1_pos z). split; field; lra.
  - destruct (Rlt_dec x 0) as [Hx'|Hx'].
    + set (z := y / x). assert (Hy : y = z * x) by (unfold z; field; lra).
      clearbody z.
      assert (K : forall s, cos (atan z + s) = cos (atan z) * cos s - sin (atan z) * sin s)
        by (intros; apply cos_plus).
      assert (L : forall s, sin (atan z + s) = sin (atan z) * cos s + cos (atan z) * sin s)
        by (intros; apply sin_plus).
      assert (HS : sqrt (x * x + y * y) = - x * sqrt (1 + z²)).
      { rewrite Hy, sqrt_factor, Rabs_left by lra. reflexivity. }
      rewrite HS.
      pose proof (sqrt_1_pos z).
      assert (E1 : cos (atan z) = 1 / sqrt (1 + z²)) by apply cos_atan.
      assert (E2 : sin (atan z) = z / sqrt (1 + z²)) by apply sin_atan.
      destruct (Rle_dec 0 y).
      * rewrite K, L, cos_PI, sin_PI, E1, E2. split; [|rewrite Hy]; field; lra.
      * unfold Rminus. rewrite K, L, cos_neg, sin_neg, cos_PI, sin_PI, E1, E2.
        split; [|rewrite Hy]; field; lra.
    + assert (x = 0) by lra. subst x. replace (0 * 0 + y * y) with (y²) by (unfold Rsqr; ring).
      rewrite sqrt_Rsqr_abs. destruct (Rlt_dec 0 y) as [Hy|Hy].
      * rewrite Rabs_pos_eq, cos_PI2, sin_PI2 by lra. split; ring.
      * destruct (Rlt_dec y 0) as [Hy'|Hy'].
        -- rewrite Rabs_left, cos_neg, sin_neg, cos_PI2, sin_PI2 by lra. split; ring.
        -- assert (y = 0) by lra. subst y. rewrite Rabs_R0. split; ring.
Qed.

(** For a non-negative first argument the angle lies in [0,PI]. *)
Lemma atan2_range y x : 0 <= y -> 0 <= Ratan2 y x <= PI.
Proof.
  intros Hy. pose proof PI_RGT_0 as HPI. unfold Ratan2.
  destruct (Rlt_dec 0 x) as [Hx|Hx].
  - assert (0 <= y / x). { apply Rmult_le_pos; [lra|]. left. apply Rinv_0_lt_compat; lra. }
    pose proof (atan_bound (y / x)). split; [|lra].
    destruct (Req_dec (y / x) 0) as [->|]; [rewrite atan_0; lra|].
    rewrite <- atan_0. left. apply atan_increasing. lra.
  - destruct (Rlt_dec x 0) as [Hx'|Hx'].
    + destruct (Rle_dec 0 y); [|lra].
      assert (y / x <= 0).
      { unfold Rdiv. assert (/ x < 0) by (apply Rinv_lt_0_compat; lra). nra. }
      pose proof (atan_bound (y / x)). split; [lra|].
      destruct (Req_dec (y / x) 0) as [->|]; [rewrite atan_0; lra|].
      assert (atan (y / x) < atan 0) by (apply atan_increasing; lra).
      rewrite atan_0 in *. lra.
    + destruct (Rlt_dec 0 y); [lra|]. destruct (Rlt_dec y 0); lra.
Qed.

(** Literals. *)
Lemma Q2R_2 : Q2R (2 # 1) = 2.
Proof. unfold Q2R; simpl; lra. Qed.
Lemma Q2R_half : Q2R (1 # 2) = / 2.
Proof. unfold Q2R; simpl; lra. Qed.
Lemma Q2R_0 : Q2R (0 # 1) = 0.
Proof. unfold Q2R; simpl; lra. Qed.
