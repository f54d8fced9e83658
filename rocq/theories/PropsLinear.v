(** * Properties C33-C35: matrices in memory, tolerant equality, index bounds *)
From Coq Require Import Reals Lra.
From Coquelicot Require Import Complex.
From Verif Require Import Base Scalar Linear Particle ParticleProofs Memory MemoryProofs RealNum
  SpecSpinor ParticleReal SpinorReal Ready ParticleClaims.

(** ** C33 *)
(** [r] has the elements [f i j], read through the public accessor. *)
Definition has_elements {num : Num} (r : cmatrix num) (f : Z -> Z -> outcome (CX num)) : Prop :=
  forall i j, (i = 0 \/ i = 1)%Z -> (j = 0 \/ j = 1)%Z -> cm_get r i j = f i j.
(** The element of the textbook sum, difference and product. *)
Definition sum_elem {num : Num} (m n : cmatrix num) (i j : Z) : outcome (CX num) :=
  let! x := cm_get m i j in let! y := cm_get n i j in Ok (x + y)%cx.
Definition diff_elem {num : Num} (m n : cmatrix num) (i j : Z) : outcome (CX num) :=
  let! x := cm_get m i j in let! y := cm_get n i j in Ok (x - y)%cx.
Definition prod_elem {num : Num} (m n : cmatrix num) (i j : Z) : outcome (CX num) :=
  let! x0 := cm_get m i 0 in let! y0 := cm_get n 0 j in
  let! x1 := cm_get m i 1 in let! y1 := cm_get n 1 j in Ok (x0 * y0 + x1 * y1)%cx.
Definition times_elem {num : Num} (m : cmatrix num) (d : scalar num) (i j : Z) : outcome (CX num) :=
  let! x := cm_get m i j in
  Ok match d with ByC d => (x * d)%cx | ByT d => cmult x d | ByI d => cmult x (tZ d) end.
Definition over_elem {num : Num} (m : cmatrix num) (d : scalar num) (i j : Z) : outcome (CX num) :=
  let! x := cm_get m i j in
  Ok match d with ByC d => cdiv x d | ByT d => cdivt x d | ByI d => cdivt x (tZ d) end.

(** The assignment [op] succeeds, gives the object at [a] the elements [f], and changes no
    other object. *)
Definition assigns {num : Num} (op : ST (memory num) unit) (mem : memory num) (a : nat)
    (f : Z -> Z -> outcome (CX num)) : Prop :=
  exists mem' r, op mem = (Ok tt, mem') /\ nth_error mem' a = Some r /\ has_elements r f /\
    length mem' = length mem /\ forall c, c <> a -> nth_error mem' c = nth_error mem c.
(** The operator [op] returns a matrix with the elements [f] and changes no object. *)
Definition returns {num : Num} (op : ST (memory num) (cmatrix num)) (mem : memory num)
    (f : Z -> Z -> outcome (CX num)) : Prop :=
  exists r, op mem = (Ok r, mem) /\ has_elements r f.

Lemma assigns_upd {num : Num} op (mem : memory num) a m r f :
  nth_error mem a = Some m -> op mem = (Ok tt, upd mem a r) -> has_elements r f -> assigns op mem a f.
Proof.
  intros Ha E H. exists (upd mem a r), r. split; [exact E|]. split; [exact (upd_same _ _ _ _ Ha)|].
  split; [exact H|]. split; [apply upd_length|]. intros c Hc. apply upd_other. auto.
Qed.
Ltac elements := intros i j [-> | ->] [-> | ->]; reflexivity.

(** In every arithmetic, a = b not excluded. *)
Theorem C33_compound_operators :
  forall (num : Num) (mem : memory num) (a b : nat) (m n : cmatrix num) (d : scalar num),
    nth_error mem a = Some m -> nth_error mem b = Some n ->
    assigns (add_assign a b) mem a (sum_elem m n) /\
    assigns (sub_assign a b) mem a (diff_elem m n) /\
    assigns (mul_assign a b) mem a (prod_elem m n) /\
    assigns (scale_assign d a) mem a (times_elem m d) /\
    assigns (div_assign d a) mem a (over_elem m d) /\
    returns (add_op a b) mem (sum_elem m n) /\
    returns (sub_op a b) mem (diff_elem m n) /\
    returns (mul_op a b) mem (prod_elem m n) /\
    returns (scale_op d a) mem (times_elem m d) /\
    returns (div_op d a) mem (over_elem m d).
Proof.
  intros num mem a b m n d Ha Hb.
  assert (Hl := nth_len mem m). assert (Hb' := nth_app1 mem m b n Hb).
  split; [|split; [|split; [|split; [|split; [|split; [|split; [|split; [|split]]]]]]]].
  - eapply assigns_upd; [exact Ha|exact (add_assign_value _ _ _ _ _ Ha Hb)|elements].
  - eapply assigns_upd; [exact Ha|exact (sub_assign_value _ _ _ _ _ Ha Hb)|elements].
  - eapply assigns_upd; [exact Ha|exact (mul_assign_value _ _ _ _ _ Ha Hb)|elements].
  - eapply assigns_upd; [exact Ha|exact (each_assign_value _ _ _ _ Ha)|elements].
  - eapply assigns_upd; [exact Ha|exact (each_assign_value _ _ _ _ Ha)|elements].
  - eexists; split; [exact (on_copy_value _ _ _ _ _ Ha (add_assign_value _ _ _ _ _ Hl Hb'))|elements].
  - eexists; split; [exact (on_copy_value _ _ _ _ _ Ha (sub_assign_value _ _ _ _ _ Hl Hb'))|elements].
  - eexists; split; [exact (on_copy_value _ _ _ _ _ Ha (mul_assign_value _ _ _ _ _ Hl Hb'))|elements].
  - eexists; split; [exact (on_copy_value _ _ _ _ _ Ha (each_assign_value _ _ _ _ Hl))|elements].
  - eexists; split; [exact (on_copy_value _ _ _ _ _ Ha (each_assign_value _ _ _ _ Hl))|elements].
Qed.
Print Assumptions C33_compound_operators.

(** The loops give exactly the value functions of Linear.v, which the rest of the model
    uses for these operators. *)
Theorem C33_value_functions :
  forall (num : Num) (mem : memory num) (a b : nat) (m n : cmatrix num),
    nth_error mem a = Some m -> nth_error mem b = Some n ->
    add_op a b mem = (Ok (cm_add m n), mem) /\
    sub_op a b mem = (Ok (cm_sub m n), mem) /\
    mul_op a b mem = (Ok (cm_mul m n), mem) /\
    (forall d, scale_op (ByC d) a mem = (Ok (cm_scale m d), mem)) /\
    (forall d, scale_op (ByT d) a mem = (Ok (cm_scalet m d), mem)) /\
    (forall d, scale_op (ByI d) a mem = (Ok (cm_scalei m d), mem)) /\
    (forall d, div_op (ByC d) a mem = (Ok (cm_div m d), mem)) /\
    (forall d, div_op (ByT d) a mem = (Ok (cm_divt m d), mem)) /\
    (forall d, div_op (ByI d) a mem = (Ok (cm_divi m d), mem)).
Proof.
  intros num mem a b m n Ha Hb.
  assert (Hl := nth_len mem m). assert (Hb' := nth_app1 mem m b n Hb).
  split; [exact (on_copy_value _ _ _ _ _ Ha (add_assign_value _ _ _ _ _ Hl Hb'))|].
  split; [exact (on_copy_value _ _ _ _ _ Ha (sub_assign_value _ _ _ _ _ Hl Hb'))|].
  split; [exact (on_copy_value _ _ _ _ _ Ha (mul_assign_value _ _ _ _ _ Hl Hb'))|].
  repeat split; intros d; exact (on_copy_value _ _ _ _ _ Ha (each_assign_value _ _ _ _ Hl)).
Qed.
Print Assumptions C33_value_functions.

Open Scope R_scope.
(** Squaring in place: m *= m for m = ((1,2),(3,4)) gives ((7,10),(15,22)); an
    implementation writing into mat while still reading it would not. *)
Example C33_example : forall st eps,
  let num := RN st eps in
  let c (x : R) : CX num := RtoC x in
  let m := CM (c 1) (c 2) (c 3) (c 4) in
  mul_assign 0 0 [m; m] = (Ok tt, [CM (c 7) (c 10) (c 15) (c 22); m]).
Proof.
  intros st eps num c m.
  rewrite (mul_assign_value (num:=num) [m; m] 0 0 m m eq_refl eq_refl). cbn [upd].
  unfold cm_mul, m, c. cbn [m00 m01 m10 m11].
  change (@cadd num) with Cplus. change (@cmul num) with Cmult. rewrite <- !RtoC_mult, <- !RtoC_plus.
  do 3 f_equal; f_equal; ring.
Qed.

(** ** C34 *)
(** What == means, over the reals. *)
Definition close_vec {st eps} (tol : R) (v w : cvector (RN st eps)) : Prop :=
  Cmod (Cminus (cv0 v) (cv0 w)) <= tol /\ Cmod (Cminus (cv1 v) (cv1 w)) <= tol.
Definition close_mat {st eps} (tol : R) (m n : cmatrix (RN st eps)) : Prop :=
  Cmod (Cminus (m00 m) (m00 n)) <= tol /\ Cmod (Cminus (m01 m) (m01 n)) <= tol /\
  Cmod (Cminus (m10 m) (m10 n)) <= tol /\ Cmod (Cminus (m11 m) (m11 n)) <= tol.

Lemma cv_eqb_close st eps (v w : cvector (RN st eps)) :
  cv_eqb v w = true <-> close_vec (eps * 10000000) v w.
Proof.
  unfold cv_eqb, close_vec. change (cv_tol (num:=RN st eps)) with (eps * 10000000).
  change (@tgtb (RN st eps)) with Rgtb. change (@cabs (RN st eps)) with Cmod.
  change (@csub (RN st eps)) with Cminus.
  destruct (Rgtb (Cmod (Cminus (cv0 v) (cv0 w))) (eps * 10000000)) eqn:E0.
  { apply Rgtb_true in E0. split; [discriminate|]. intros [H _]. lra. }
  apply Rgtb_false in E0.
  destruct (Rgtb (Cmod (Cminus (cv1 v) (cv1 w))) (eps * 10000000)) eqn:E1.
  { apply Rgtb_true in E1. split; [discriminate|]. intros [_ H]. lra. }
  apply Rgtb_false in E1. tauto.
Qed.
Lemma cm_eqb_close st eps (m n : cmatrix (RN st eps)) :
  cm_eqb m n = true <-> close_mat (eps * 1000000) m n.
Proof.
  unfold cm_eqb, close_mat. change (cm_tol (num:=RN st eps)) with (eps * 1000000).
  change (@tgtb (RN st eps)) with Rgtb. change (@cabs (RN st eps)) with Cmod.
  change (@csub (RN st eps)) with Cminus.
  destruct (Rgtb (Cmod (Cminus (m00 m) (m00 n))) (eps * 1000000)) eqn:E0.
  { apply Rgtb_true in E0. split; [discriminate|]. intros H. lra. }
  destruct (Rgtb (Cmod (Cminus (m01 m) (m01 n))) (eps * 1000000)) eqn:E1.
  { apply Rgtb_true in E1. split; [discriminate|]. intros H. lra. }
  destruct (Rgtb (Cmod (Cminus (m10 m) (m10 n))) (eps * 1000000)) eqn:E2.
  { apply Rgtb_true in E2. split; [discriminate|]. intros H. lra. }
  destruct (Rgtb (Cmod (Cminus (m11 m) (m11 n))) (eps * 1000000)) eqn:E3.
  { apply Rgtb_true in E3. split; [discriminate|]. intros H. lra. }
  apply Rgtb_false in E0, E1, E2, E3. tauto.
Qed.

(** Transitivity is false for both classes. *)
Theorem C34_transitive_refuted :
  forall st eps, 0 < eps ->
  (exists u v w : cvector (RN st eps), cv_eqb u v = true /\ cv_eqb v w = true /\ cv_eqb u w = false) /\
  (exists u v w : cmatrix (RN st eps), cm_eqb u v = true /\ cm_eqb v w = true /\ cm_eqb u w = false).
Proof.
  intros st eps He.
  assert (Z : forall t, 0 < t -> Cmod (RtoC 0 - RtoC 0)%C <= t).
  { intros t Ht. rewrite <- RtoC_minus, Cmod_R, Rminus_0_r, Rabs_R0. lra. }
  assert (A : forall x y t, Rabs (x - y) <= t -> Cmod (RtoC x - RtoC y)%C <= t).
  { intros x y t H. now rewrite <- RtoC_minus, Cmod_R. }
  split.
  - set (t := eps * 10000000).
    exists (@CV (RN st eps) (RtoC 0) (RtoC 0)), (@CV (RN st eps) (RtoC t) (RtoC 0)),
      (@CV (RN st eps) (RtoC (2 * t)) (RtoC 0)).
    split; [|split].
    + apply cv_eqb_close. split; cbn [cv0 cv1]; [apply A|apply Z; unfold t; lra].
      fold t. rewrite Rabs_minus_sym, Rabs_pos_eq; unfold t; lra.
    + apply cv_eqb_close. split; cbn [cv0 cv1]; [apply A|apply Z; unfold t; lra].
      fold t. rewrite Rabs_minus_sym, Rabs_pos_eq; unfold t; lra.
    + apply not_true_iff_false. intros H. apply cv_eqb_close in H. destruct H as [H _]. cbn [cv0] in H.
      fold t in H. rewrite <- RtoC_minus, Cmod_R, Rabs_minus_sym, Rabs_pos_eq in H; unfold t in *; lra.
  - set (t := eps * 1000000).
    exists (@CM (RN st eps) (RtoC 0) (RtoC 0) (RtoC 0) (RtoC 0)),
      (@CM (RN st eps) (RtoC 0) (RtoC 0) (RtoC 0) (RtoC t)),
      (@CM (RN st eps) (RtoC 0) (RtoC 0) (RtoC 0) (RtoC (2 * t))).
    split; [|split].
    + apply cm_eqb_close. unfold close_mat; cbn [m00 m01 m10 m11].
      do 3 (split; [apply Z; unfold t; lra|]). apply A. fold t.
      rewrite Rabs_minus_sym, Rabs_pos_eq; unfold t; lra.
    + apply cm_eqb_close. unfold close_mat; cbn [m00 m01 m10 m11].
      do 3 (split; [apply Z; unfold t; lra|]). apply A. fold t.
      rewrite Rabs_minus_sym, Rabs_pos_eq; unfold t; lra.
    + apply not_true_iff_false. intros H. apply cm_eqb_close in H. unfold close_mat in H; cbn [m11] in H.
      destruct H as (_ & _ & _ & H).
      fold t in H. rewrite <- RtoC_minus, Cmod_R, Rabs_minus_sym, Rabs_pos_eq in H; unfold t in *; lra.
Qed.
Print Assumptions C34_transitive_refuted.

(** What does hold: reflexive, symmetric, != the negation, and transitive up to twice the
    tolerance.  Missing: transitivity (refuted above). *)
Theorem C34_tolerant_equality_partial :
  forall st eps, 0 <= eps ->
  (forall v : cvector (RN st eps), cv_eqb v v = true) /\
  (forall v w : cvector (RN st eps), cv_eqb v w = cv_eqb w v) /\
  (forall v w : cvector (RN st eps), cv_neqb v w = true <-> ~ cv_eqb v w = true) /\
  (forall v w : cvector (RN st eps), cv_eqb v w = true <-> close_vec (eps * 10000000) v w) /\
  (forall m : cmatrix (RN st eps), cm_eqb m m = true) /\
  (forall m n : cmatrix (RN st eps), cm_eqb m n = cm_eqb n m) /\
  (forall m n : cmatrix (RN st eps), cm_neqb m n = true <-> ~ cm_eqb m n = true) /\
  (forall m n : cmatrix (RN st eps), cm_eqb m n = true <-> close_mat (eps * 1000000) m n).
Proof.
  intros st eps He.
  assert (Z : forall (z : C) t, 0 <= t -> Cmod (z - z)%C <= t).
  { intros z t Ht. unfold Cminus. rewrite Cplus_opp_r, Cmod_0. exact Ht. }
  assert (S : forall x y : C, Cmod (x - y)%C = Cmod (y - x)%C).
  { intros x y. rewrite <- Cmod_opp. f_equal. ring. }
  split; [intros v; apply cv_eqb_close; split; apply Z; lra|].
  split; [intros v w; unfold cv_eqb; change (@cabs (RN st eps)) with Cmod;
          change (@csub (RN st eps)) with Cminus; now rewrite (S (cv0 v)), (S (cv1 v))|].
  split; [intros v w; unfold cv_neqb; rewrite negb_true_iff, not_true_iff_false; tauto|].
  split; [apply cv_eqb_close|].
  split; [intros v; apply cm_eqb_close; repeat split; apply Z; lra|].
  split; [intros v w; unfold cm_eqb; change (@cabs (RN st eps)) with Cmod;
          change (@csub (RN st eps)) with Cminus; now rewrite (S (m00 v)), (S (m01 v)), (S (m10 v)), (S (m11 v))|].
  split; [intros v w; unfold cm_neqb; rewrite negb_true_iff, not_true_iff_false; tauto|].
  apply cm_eqb_close.
Qed.
Print Assumptions C34_tolerant_equality_partial.

(** ** C35 *)
(** In every arithmetic, for every int (indeed every integer). *)
Theorem C35_index_bounds :
  forall (num : Num) (x y : CX num) (a b c d : CX num) (i j : Z),
    (cv_get (CV x y) 0 = Ok x /\ cv_get (CV x y) 1 = Ok y) /\
    (~ (0 <= i < 2)%Z -> cv_get (CV x y) i = Exn IndexRange) /\
    (cm_get (CM a b c d) 0 0 = Ok a /\ cm_get (CM a b c d) 0 1 = Ok b /\
     cm_get (CM a b c d) 1 0 = Ok c /\ cm_get (CM a b c d) 1 1 = Ok d) /\
    (~ ((0 <= i < 2)%Z /\ (0 <= j < 2)%Z) -> cm_get (CM a b c d) i j = Exn IndexRange).
Proof.
  intros num x y a b c d i j. split; [split; reflexivity|]. split; [|split; [repeat split; reflexivity|]].
  - intros H. unfold cv_get. destruct ((i <? 0)%Z || (i >=? 2)%Z) eqn:E; [reflexivity|].
    apply orb_false_iff in E. rewrite Z.geb_leb in E. lia.
  - intros H. unfold cm_get.
    destruct ((i <? 0)%Z || (i >=? 2)%Z || (j <? 0)%Z || (j >=? 2)%Z) eqn:E; [reflexivity|].
    rewrite !orb_false_iff, !Z.geb_leb in E. lia.
Qed.
Print Assumptions C35_index_bounds.

(** get_momentum of a particle in use: defined exactly for 0..3, and never an exception. *)
Theorem C35_get_momentum_unchecked :
  forall (num : Num) (m : T num) (q : mom num) (P : particle num), ready m q P ->
    get_momentum P 0 = Ok (v_0 q) /\ get_momentum P 1 = Ok (v_1 q) /\
    get_momentum P 2 = Ok (v_2 q) /\ get_momentum P 3 = Ok (v_3 q) /\
    (forall mu, ~ (0 <= mu <= 3)%Z -> get_momentum P mu = UB BadIndex) /\
    (forall mu e, get_momentum P mu <> Exn e).
Proof.
  intros num m q P HR.
  assert (G : forall mu, exists P0 P1, mass P0 = Ok m /\ set_momentum q P0 = (Ok tt, P1) /\
             get_momentum P mu = get_momentum P1 mu).
  { intros mu. apply (ready_transparent (sconst (fun P => get_momentum P mu)) m q P); [|exact HR].
    apply transparent_const. reflexivity. }
  assert (K : forall P0 P1, set_momentum q P0 = (Ok tt, P1) -> pa_p P1 = cells q).
  { intros P0 P1 H. unfold set_momentum, sbind, modify in H.
    rewrite (update_keeps_p _ _ _ H). reflexivity. }
  split; [|split; [|split; [|split; [|split]]]].
  - destruct (G 0%Z) as (P0 & P1 & _ & E & ->). unfold get_momentum, f_p0, f_p1, f_p2, f_p3.
    cbn [Z.eqb Pos.eqb]. rewrite (K _ _ E). reflexivity.
  - destruct (G 1%Z) as (P0 & P1 & _ & E & ->). unfold get_momentum, f_p0, f_p1, f_p2, f_p3.
    cbn [Z.eqb Pos.eqb]. rewrite (K _ _ E). reflexivity.
  - destruct (G 2%Z) as (P0 & P1 & _ & E & ->). unfold get_momentum, f_p0, f_p1, f_p2, f_p3.
    cbn [Z.eqb Pos.eqb]. rewrite (K _ _ E). reflexivity.
  - destruct (G 3%Z) as (P0 & P1 & _ & E & ->). unfold get_momentum, f_p0, f_p1, f_p2, f_p3.
    cbn [Z.eqb Pos.eqb]. rewrite (K _ _ E). reflexivity.
  - intros mu H. unfold get_momentum.
    destruct (mu =? 0)%Z eqn:E0; [lia|]. destruct (mu =? 1)%Z eqn:E1; [lia|].
    destruct (mu =? 2)%Z eqn:E2; [lia|]. destruct (mu =? 3)%Z eqn:E3; [lia|]. reflexivity.
  - intros mu e. destruct (G mu) as (P0 & P1 & _ & E & ->).
    unfold get_momentum, f_p0, f_p1, f_p2, f_p3. rewrite (K _ _ E). cbn [cells v_0 v_1 v_2 v_3 rd].
    repeat match goal with |- context [if ?b then _ else _] => destruct b end; discriminate.
Qed.
Print Assumptions C35_get_momentum_unchecked.
Example C35_example : forall st eps, 0 <= eps ->
  exists P : particle (RN st eps), ready (num:=RN st eps) 12 (V4 13 3 4 0) P /\
    get_momentum P 2 = Ok 4 /\ get_momentum P (-1) = UB BadIndex /\ get_momentum P 4 = UB BadIndex.
Proof.
  intros st eps He.
  assert (S : on_shell 12 (V4 13 3 4 0))
    by (unfold on_shell, minksq; cbn [v_0 v_1 v_2 v_3]; lra).
  destruct (new_on_shell st eps (fun _ => 0) 12 (V4 13 3 4 0) He S) as (P & _ & HR).
  exists P. split; [exact HR|]. destruct (C35_get_momentum_unchecked _ _ _ _ HR) as (_ & _ & H & _ & H' & _).
  split; [exact H|]. split; apply H'; lia.
Qed.
