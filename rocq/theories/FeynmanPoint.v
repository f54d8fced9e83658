(** * The Feynman rules at rational points

    Used in proofs only: at momenta for which E + p and E - p are squares of rational numbers the
    amplitude of BosonSpec.v is a number a + b sqrt 2 + i (c + d sqrt 2), which can be computed. *)
From Coq Require Import Reals ZArith QArith Qreals List Bool Lra Lia.
From Coquelicot Require Import Complex.
From Verif Require Import Base Feynman BosonSpec BosonHom SpinColour BosonMatch.
Import ListNotations.
Open Scope Q_scope.

Definition q2 : Type := (Q * Q)%type.
Definition q2add (x y : q2) : q2 := (Qred (fst x + fst y), Qred (snd x + snd y)).
Definition q2mul (x y : q2) : q2 := (Qred (fst x * fst y + 2 * (snd x * snd y)), Qred (fst x * snd y + snd x * fst y)).
Definition q2neg (x : q2) : q2 := (- fst x, - snd x).
Definition q2R (x : q2) : R := (Q2R (fst x) + Q2R (snd x) * sqrt 2)%R.
Definition q4 : Type := (q2 * q2)%type.
Definition q4add (x y : q4) : q4 := (q2add (fst x) (fst y), q2add (snd x) (snd y)).
Definition q4mul (x y : q4) : q4 :=
  (q2add (q2mul (fst x) (fst y)) (q2neg (q2mul (snd x) (snd y))), q2add (q2mul (fst x) (snd y)) (q2mul (snd x) (fst y))).
Definition q4neg (x : q4) : q4 := (q2neg (fst x), q2neg (snd x)).
Definition rat (x : Q) : q4 := ((x, 0), (0, 0)).
Definition q4O : ops q4 := mkOps q4 (fun z => rat (inject_Z z)) q4add q4mul q4neg.
Definition q4C (x : q4) : C := (q2R (fst x), q2R (snd x)).

Lemma Q2R_red x : Q2R (Qred x) = Q2R x.
Proof. apply Qeq_eqR, Qred_correct. Qed.
Lemma Q2R_Z z : Q2R (inject_Z z) = IZR z.
Proof. unfold Q2R, inject_Z. cbn [Qnum Qden]. field. Qed.
Lemma q2add_ok x y : q2R (q2add x y) = (q2R x + q2R y)%R.
Proof. unfold q2R, q2add. cbn [fst snd]. rewrite !Q2R_red, !Q2R_plus. ring. Qed.
Lemma q2neg_ok x : q2R (q2neg x) = (- q2R x)%R.
Proof. unfold q2R, q2neg. cbn [fst snd]. rewrite !Q2R_opp. ring. Qed.
Lemma q2mul_ok x y : q2R (q2mul x y) = (q2R x * q2R y)%R.
Proof.
  unfold q2R, q2mul. cbn [fst snd]. rewrite !Q2R_red, !Q2R_plus, !Q2R_mult. change 2%Q with (inject_Z 2). rewrite Q2R_Z.
  pose proof (sqrt_sqrt 2 ltac:(lra)) as H. transitivity (Q2R (fst x) * Q2R (fst y) + (sqrt 2 * sqrt 2) * (Q2R (snd x) * Q2R (snd y)) + (Q2R (fst x) * Q2R (snd y) + Q2R (snd x) * Q2R (fst y)) * sqrt 2)%R; [rewrite H; ring|ring].
Qed.
Lemma q4add_ok x y : q4C (q4add x y) = Cplus (q4C x) (q4C y).
Proof. unfold q4C, q4add, Cplus. cbn [fst snd]. rewrite !q2add_ok. reflexivity. Qed.
Lemma q4neg_ok x : q4C (q4neg x) = Copp (q4C x).
Proof. unfold q4C, q4neg, Copp. cbn [fst snd]. rewrite !q2neg_ok. reflexivity. Qed.
Lemma q4mul_ok x y : q4C (q4mul x y) = Cmult (q4C x) (q4C y).
Proof. unfold q4C, q4mul, Cmult. cbn [fst snd]. rewrite !q2add_ok, q2neg_ok, !q2mul_ok. f_equal; ring. Qed.
Lemma rat_ok x : q4C (rat x) = RtoC (Q2R x).
Proof. unfold q4C, rat, q2R, RtoC. cbn [fst snd]. replace (Q2R 0) with 0%R by (unfold Q2R; cbn; lra). f_equal; ring. Qed.

(** ** A point: parameters, and sqrt (E + p), sqrt (E - p) of the legs *)
Record rpoint : Type := RPoint {
  r_e : Q; r_gs : Q; r_sw : Q; r_cw : Q; r_mW : Q; r_mh : Q; r_wZ : Q; r_wW : Q; r_wh : Q; r_fm : flavour -> Q;
  r_x : nat -> Q; r_y : nat -> Q; r_c : Q; r_s : Q }.
Section Point.
  Variable r : rpoint.
  Variable t : nat -> ptype.
  Definition model_of : standard_model :=
    mkSM (Q2R (r_e r)) (Q2R (r_gs r)) (Q2R (r_sw r)) (Q2R (r_mW r)) (Q2R (r_mh r)) (Q2R (r_wZ r)) (Q2R (r_wW r)) (Q2R (r_wh r)) (fun f => Q2R (r_fm r f)).
  Definition pQ (k : nat) : Q := (r_x r k * r_x r k - r_y r k * r_y r k) * (1 # 2).
  Definition eQ (k : nat) : Q := (r_x r k * r_x r k + r_y r k * r_y r k) * (1 # 2).
  Definition frame_of : frame := mkFrame (Q2R (pQ 0)) (Q2R (pQ 2)) (Q2R (r_c r)) (Q2R (r_s r)).
  Definition massQ (p : ptype) : Q :=
    match p with PA | PG => 0 | PZ => r_mW r / r_cw r | PWp | PWm => r_mW r | Ph => r_mh r | Pf f | Pa f => r_fm r f end.
  Definition widthQ (p : ptype) : Q := match p with PZ => r_wZ r | PWp | PWm => r_wW r | Ph => r_wh r | _ => 0 end.
  Definition cQ (k : nat) : Q := match k with 0%nat => 1 | 1%nat => 0 | 2%nat => r_c r | _ => r_s r end.
  Definition sQ (k : nat) : Q := match k with 0%nat => 0 | 1%nat => 1 | 2%nat => r_s r | _ => - r_c r end.
  Definition leg_fits (k : nat) : bool :=
    Qle_bool 0 (r_x r k) && Qle_bool 0 (r_y r k) && Qeq_bool (r_x r k * r_y r k) (massQ (t k)) && Qeq_bool (pQ k) (pQ (if (k <? 2)%nat then 0 else 2)) &&
    match t k with PZ | PWp | PWm => negb (Qeq_bool (massQ (t k)) 0) | _ => true end.
  Definition point_fits : bool :=
    negb (Qle_bool (r_cw r) 0) && Qeq_bool (r_sw r * r_sw r + r_cw r * r_cw r) 1 && negb (Qeq_bool (r_sw r) 0) && negb (Qeq_bool (r_mW r) 0) &&
    leg_fits 0 && leg_fits 1 && leg_fits 2 && leg_fits 3.
  Definition momQ (k mu : nat) : Q :=
    match mu with 0%nat => eQ k | 1%nat => pQ k * (2 * cQ k * sQ k) | 2%nat => 0 | _ => pQ k * (cQ k * cQ k - sQ k * sQ k) end.
  Definition invQ (j : nat) : Q :=
    let d mu := (if (2 <=? S j)%nat then momQ 0 mu - momQ (S j) mu else momQ 0 mu + momQ (S j) mu) in
    Qred (d 0%nat * d 0%nat - d 1%nat * d 1%nat - d 2%nat * d 2%nat - d 3%nat * d 3%nat).
  Definition propQ (j : nat) (p : ptype) : q4 :=
    let u := invQ j - massQ p * massQ p in let v := massQ p * widthQ p in let n := u * u + v * v in
    ((Qred (u / n), 0), (Qred (v / n), 0)).
  Definition constsQ : consts q4 :=
    mkConsts q4 (rat (1 # 2)) (rat (1 # 3)) ((0, 1), (0, 0)) (rat (r_sw r)) (rat (/ r_sw r)) (rat (r_cw r)) (rat (/ r_cw r)) (rat (r_mW r)) (rat (/ r_mW r)) (rat (r_mh r)) (fun f => rat (r_fm r f)).
  Definition legQ (k : nat) : kleg q4 :=
    mkKleg (rat (r_x r k)) (rat (r_y r k)) (rat (cQ k)) (rat (sQ k)) (rat (match t k with PZ | PWp | PWm => / massQ (t k) | _ => 0 end)).
  Definition treeQ (h : nat -> Z) : q4 :=
    q4mul (rat (r_e r * (if with_gluon t then r_gs r else r_e r))) (amplitudeK q4O constsQ propQ legQ t h).

  Hypothesis HF : point_fits = true.
  Lemma fits_all : (0 < Q2R (r_cw r))%R /\ (Q2R (r_sw r) * Q2R (r_sw r) + Q2R (r_cw r) * Q2R (r_cw r) = 1)%R /\ ~ r_sw r == 0 /\ ~ r_mW r == 0 /\
    forall k, (k < 4)%nat -> leg_fits k = true.
  Proof.
    unfold point_fits in HF. repeat (apply andb_prop in HF as [HF ?]).
    apply negb_true_iff in HF, H4, H3. split; [|split; [|split; [|split]]].
    - replace 0%R with (Q2R 0) by (unfold Q2R; cbn; lra). apply Qlt_Rlt. apply Qnot_le_lt. intros K. apply Qle_bool_iff in K. rewrite K in HF. discriminate HF.
    - apply Qeq_bool_eq, Qeq_eqR in H5. rewrite Q2R_plus, !Q2R_mult in H5. rewrite H5. unfold Q2R. cbn. lra.
    - intros K. apply Qeq_bool_iff in K. rewrite K in H4. discriminate H4.
    - intros K. apply Qeq_bool_iff in K. rewrite K in H3. discriminate H3.
    - intros [|[|[|[|k]]]] Hk; try assumption. lia.
  Qed.
  Lemma cw_of : sm_cw model_of = Q2R (r_cw r).
  Proof.
    destruct fits_all as (H1 & H2 & _). unfold sm_cw. cbn [sm_sw model_of]. replace (1 - Q2R (r_sw r) * Q2R (r_sw r))%R with (Q2R (r_cw r) * Q2R (r_cw r))%R by lra.
    apply sqrt_square. lra.
  Qed.
  Lemma cw_nz : ~ r_cw r == 0.
  Proof. destruct fits_all as (H1 & _). intros K. apply Qeq_eqR in K. rewrite K in H1. unfold Q2R in H1. cbn in H1. lra. Qed.
  Lemma mass_of_point p : pmass model_of p = Q2R (massQ p).
  Proof.
    assert (Z0 : 0%R = Q2R 0) by (unfold Q2R; cbn; lra). destruct p; cbn [pmass massQ]; try exact Z0; try reflexivity.
    rewrite cw_of. rewrite Q2R_div by exact cw_nz. reflexivity.
  Qed.
  Lemma width_of_point p : pwidth model_of p = Q2R (widthQ p).
  Proof. assert (Z0 : 0%R = Q2R 0) by (unfold Q2R; cbn; lra). destruct p; cbn [pwidth widthQ]; try exact Z0; reflexivity. Qed.
  Lemma leg_facts k : (k < 4)%nat -> (0 <= Q2R (r_x r k))%R /\ (0 <= Q2R (r_y r k))%R /\ (Q2R (r_x r k) * Q2R (r_y r k) = pmass model_of (t k))%R /\
    cm_p frame_of k = ((Q2R (r_x r k) * Q2R (r_x r k) - Q2R (r_y r k) * Q2R (r_y r k)) / 2)%R.
  Proof.
    intros Hk. destruct fits_all as (_ & _ & _ & _ & H). pose proof (H k Hk) as K. unfold leg_fits in K. repeat (apply andb_prop in K as [K ?]).
    assert (Z0 : 0%R = Q2R 0) by (unfold Q2R; cbn; lra).
    split; [rewrite Z0; apply Qle_Rle, Qle_bool_iff, K|]. split; [rewrite Z0; apply Qle_Rle, Qle_bool_iff; assumption|].
    split; [rewrite mass_of_point, <- Q2R_mult; apply Qeq_eqR, Qeq_bool_eq; assumption|].
    assert (X : cm_p frame_of k = Q2R (pQ k)).
    { apply Qeq_bool_eq, Qeq_eqR in H1. rewrite H1. unfold cm_p, frame_of. cbn [f_in f_out]. destruct (k <? 2)%nat; reflexivity. }
    rewrite X. unfold pQ. rewrite Q2R_mult, Q2R_minus, !Q2R_mult. replace (Q2R (1 # 2)) with (/ 2)%R by (unfold Q2R; cbn; lra). reflexivity.
  Qed.
  Lemma energy_of_point k : (k < 4)%nat -> cm_energy model_of t frame_of k = Q2R (eQ k).
  Proof.
    intros Hk. destruct (leg_facts k Hk) as (X & Y & M & P). unfold cm_energy. rewrite <- M, P. unfold eQ. rewrite Q2R_mult, Q2R_plus, !Q2R_mult.
    replace (Q2R (1 # 2)) with (/ 2)%R by (unfold Q2R; cbn; lra). set (x := Q2R (r_x r k)) in *. set (y := Q2R (r_y r k)) in *.
    replace (x * y * (x * y) + (x * x - y * y) / 2 * ((x * x - y * y) / 2))%R with (((x * x + y * y) * / 2) * ((x * x + y * y) * / 2))%R by field.
    apply sqrt_square. assert (0 <= x * x)%R by (apply Rmult_le_pos; assumption). assert (0 <= y * y)%R by (apply Rmult_le_pos; assumption). lra.
  Qed.
  Lemma eQ_R k : Q2R (eQ k) = ((Q2R (r_x r k) * Q2R (r_x r k) + Q2R (r_y r k) * Q2R (r_y r k)) / 2)%R.
  Proof. unfold eQ. rewrite Q2R_mult, Q2R_plus, !Q2R_mult. replace (Q2R (1 # 2)) with (/ 2)%R by (unfold Q2R; cbn; lra). reflexivity. Qed.
  Lemma cs_of_point k : cm_c frame_of k = Q2R (cQ k) /\ cm_s frame_of k = Q2R (sQ k).
  Proof.
    assert (Z0 : 0%R = Q2R 0) by (unfold Q2R; cbn; lra). assert (Z1 : 1%R = Q2R 1) by (unfold Q2R; cbn; lra).
    destruct k as [|[|[|k]]]; cbn [cm_c cm_s cQ sQ frame_of f_c f_s]; split; try assumption; try reflexivity. symmetry. apply Q2R_opp.
  Qed.
  Lemma leg_of_point k : (k < 4)%nat -> lmap q4C (legQ k) = cm_leg model_of t frame_of k.
  Proof.
    intros Hk. destruct (leg_facts k Hk) as (X & Y & M & P). destruct (cs_of_point k) as [C S]. unfold lmap, legQ, cm_leg. cbn [k_x k_y k_c k_s k_im]. rewrite !rat_ok.
    rewrite (energy_of_point k Hk), eQ_R, P, C, S. set (x := Q2R (r_x r k)) in *. set (y := Q2R (r_y r k)) in *.
    replace ((x * x + y * y) / 2 + (x * x - y * y) / 2)%R with (x * x)%R by field.
    replace ((x * x + y * y) / 2 - (x * x - y * y) / 2)%R with (y * y)%R by field. rewrite !sqrt_square by assumption. f_equal. f_equal.
    assert (Z0 : 0%R = Q2R 0) by (unfold Q2R; cbn; lra). destruct fits_all as (_ & _ & _ & _ & H). pose proof (H k Hk) as K. unfold leg_fits in K. apply andb_prop in K as [_ K].
    rewrite mass_of_point. destruct (t k); try (symmetry; exact Z0); apply Q2R_inv; intros E; apply Qeq_bool_iff in E; rewrite E in K; discriminate K.
  Qed.
  Lemma mom_of_point k mu : (k < 4)%nat -> cm_mom model_of t frame_of k mu = Q2R (momQ k mu).
  Proof.
    intros Hk. destruct (leg_facts k Hk) as (X & Y & M & P). destruct (cs_of_point k) as [C S]. assert (Z0 : 0%R = Q2R 0) by (unfold Q2R; cbn; lra).
    assert (PP : Q2R (pQ k) = cm_p frame_of k) by (rewrite P; unfold pQ; rewrite Q2R_mult, Q2R_minus, !Q2R_mult; replace (Q2R (1 # 2)) with (/ 2)%R by (unfold Q2R; cbn; lra); reflexivity).
    destruct mu as [|[|[|mu]]]; cbn [cm_mom momQ]; [exact (energy_of_point k Hk)| |exact Z0|]; rewrite Q2R_mult, PP.
    - rewrite !Q2R_mult, <- C, <- S. replace (Q2R 2) with 2%R by (unfold Q2R; cbn; lra). reflexivity.
    - rewrite Q2R_minus, !Q2R_mult, <- C, <- S. reflexivity.
  Qed.
  Lemma inv_of_point j : (j < 3)%nat -> invariant model_of t frame_of j = Q2R (invQ j).
  Proof.
    intros Hj. unfold invQ. cbv zeta. rewrite Q2R_red, !Q2R_minus, !Q2R_mult. unfold invariant, square4, transfer, ingoing, goes_out. change (2 <=? 0)%nat with false. cbv iota.
    rewrite !(mom_of_point 0) by lia. rewrite !(mom_of_point (S j)) by lia. destruct (2 <=? S j)%nat; rewrite ?Q2R_minus, ?Q2R_plus; ring.
  Qed.
  Definition poles_off : bool := forallb (fun jp => negb (Qeq_bool (invQ (fst jp) - massQ (snd jp) * massQ (snd jp)) 0)) (poles t).
  Hypothesis HP : poles_off = true.
  Lemma poles_lt3 j p : In (j, p) (poles t) -> (j < 3)%nat.
  Proof.
    unfold poles. cbv zeta. rewrite !in_app_iff, !in_map_iff. intros [H|[H|H]]; destruct H as (x & H & _); injection H as <- _; lia.
  Qed.
  Lemma den_off j p : In (j, p) (poles t) -> Q2R (invQ j - massQ p * massQ p) <> 0%R.
  Proof.
    intros H E. pose proof (proj1 (forallb_forall _ _) HP (j, p) H) as X. cbn [fst snd] in X. apply negb_true_iff in X.
    assert (K : invQ j - massQ p * massQ p == 0) by (apply eqR_Qeq; rewrite E; unfold Q2R; cbn; lra). apply Qeq_bool_iff in K. rewrite K in X. discriminate X.
  Qed.
  Lemma prop_of_point j p : In (j, p) (poles t) -> q4C (propQ j p) = Cinv (tree_den model_of p (invariant model_of t frame_of j)).
  Proof.
    intros H. rewrite (inv_of_point j (poles_lt3 j p H)). unfold tree_den. rewrite mass_of_point, width_of_point. pose proof (den_off j p H) as N.
    unfold propQ. cbv zeta. set (u := invQ j - massQ p * massQ p) in *. set (v := massQ p * widthQ p).
    assert (ND : ~ u * u + v * v == 0).
    { intros E. apply Qeq_eqR in E. rewrite Q2R_plus, !Q2R_mult in E. replace (Q2R 0) with 0%R in E by (unfold Q2R; cbn; lra). apply N. apply Rsqr_0_uniq. unfold Rsqr.
      assert (0 <= Q2R u * Q2R u)%R by apply Rle_0_sqr. assert (0 <= Q2R v * Q2R v)%R by apply Rle_0_sqr. lra. }
    assert (NR : (Q2R u * Q2R u + Q2R v * Q2R v)%R <> 0%R).
    { intros E. apply ND, eqR_Qeq. rewrite Q2R_plus, !Q2R_mult, E. unfold Q2R. cbn. lra. }
    replace (Q2R (invQ j) - Q2R (massQ p) * Q2R (massQ p))%R with (Q2R u) by (unfold u; rewrite Q2R_minus, Q2R_mult; reflexivity).
    replace (Q2R (massQ p) * Q2R (widthQ p))%R with (Q2R v) by (unfold v; rewrite Q2R_mult; reflexivity).
    unfold q4C, q2R, Cinv. cbn [fst snd]. rewrite !Q2R_red, !Q2R_div by exact ND. rewrite Q2R_plus, !Q2R_mult. replace (Q2R 0) with 0%R by (unfold Q2R; cbn; lra).
    assert (NC : (Q2R u ^ 2 + (- Q2R v) ^ 2)%R <> 0%R) by (replace (Q2R u ^ 2 + (- Q2R v) ^ 2)%R with (Q2R u * Q2R u + Q2R v * Q2R v)%R by ring; assumption).
    replace (Q2R u ^ 2 + (- Q2R v) ^ 2)%R with (Q2R u * Q2R u + Q2R v * Q2R v)%R by ring. f_equal; field; assumption.
  Qed.
  Lemma consts_of_point : consts_hom q4C constsQ (constsC model_of).
  Proof.
    destruct fits_all as (_ & _ & NS & NM & _).
    constructor; unfold constsQ, constsC; cbn [c_half c_third c_sq2 c_sw c_isw c_cw c_icw c_mW c_imW c_mh c_fm]; rewrite ?rat_ok; rewrite ?cw_of, ?Q2R_inv by (first [exact NS|exact NM|exact cw_nz]); try reflexivity.
    - f_equal. unfold Q2R. cbn. lra.
    - f_equal. unfold Q2R. cbn. lra.
    - unfold q4C, q2R, RtoC. cbn [fst snd]. replace (Q2R 0) with 0%R by (unfold Q2R; cbn; lra). replace (Q2R 1) with 1%R by (unfold Q2R; cbn; lra). f_equal; ring.
    - intros f. rewrite rat_ok. reflexivity.
  Qed.
  Lemma tree_of_point h : feynman_tree model_of t frame_of h = q4C (treeQ h).
  Proof.
    unfold feynman_tree, treeQ. rewrite q4mul_ok, rat_ok. f_equal.
    - f_equal. rewrite Q2R_mult. destruct (with_gluon t); reflexivity.
    - assert (HZ : forall z, q4C (o_Z q4O z) = o_Z CO z) by (intros z; cbn [q4O CO o_Z]; rewrite rat_ok, Q2R_Z; reflexivity).
      rewrite (h_amplitude q4O CO q4C HZ q4add_ok q4mul_ok q4neg_ok constsQ (constsC model_of) consts_of_point propQ (fun j p => q4C (propQ j p)) (fun _ _ => eq_refl) legQ (cm_leg model_of t frame_of) t h leg_of_point).
      apply amplitude_poles. intros j p H. symmetry. exact (prop_of_point j p H).
  Qed.

  Definition norm2 (x : q4) : q2 := q2add (q2mul (fst x) (fst x)) (q2mul (snd x) (snd x)).
  Definition tree2Q : q2 :=
    fold_right (fun h a => q2add (norm2 (treeQ (fun k => nth k h 0%Z))) a) (0, 0) (cart (map (fun k => helicities (t k)) (seq 0 4))).
  Lemma tree2_of_point : feynman_tree2 model_of t frame_of = (colour_sum t * / INR (initial_states t) * q2R tree2Q)%R.
  Proof.
    unfold feynman_tree2, tree2Q. f_equal. generalize (cart (map (fun k => helicities (t k)) (seq 0 4))). intros l. induction l as [|h l IH].
    - cbn [rsum fold_right]. unfold q2R. cbn [fst snd]. replace (Q2R 0) with 0%R by (unfold Q2R; cbn; lra). ring.
    - cbn [rsum fold_right]. rewrite q2add_ok, IH. f_equal. rewrite tree_of_point. unfold norm2. rewrite q2add_ok, !q2mul_ok.
      unfold Cmod, q4C. cbn [fst snd]. rewrite pow2_sqrt; [ring|]. apply Rplus_le_le_0_compat; apply pow2_ge_0.
  Qed.

  (** the hypotheses of C57 and C60 on the momenta *)
  Definition kin_fits : bool :=
    forallb (fun k => if heavy (t k) then negb (Qle_bool (massQ (t k)) 0) else true) [0; 1; 2; 3]%nat &&
    negb (Qle_bool (pQ 0) 0) && negb (Qle_bool (pQ 2) 0) && negb (Qle_bool (r_c r) 0) && negb (Qle_bool (r_s r) 0) &&
    Qeq_bool (r_c r * r_c r + r_s r * r_s r) 1 && Qeq_bool (eQ 0 + eQ 1) (eQ 2 + eQ 3).
  Lemma lt_of q : negb (Qle_bool q 0) = true -> (0 < Q2R q)%R.
  Proof.
    intros H. apply negb_true_iff in H. replace 0%R with (Q2R 0) by (unfold Q2R; cbn; lra). apply Qlt_Rlt, Qnot_le_lt. intros K. apply Qle_bool_iff in K. rewrite K in H. discriminate H.
  Qed.
  Lemma kin_of_point : kin_fits = true ->
    (forall k, (k < 4)%nat -> heavy (t k) = true -> (0 < pmass model_of (t k))%R) /\
    (0 < f_in frame_of /\ 0 < f_out frame_of /\ 0 < f_c frame_of /\ 0 < f_s frame_of /\ f_c frame_of * f_c frame_of + f_s frame_of * f_s frame_of = 1 /\
    cm_energy model_of t frame_of 0 + cm_energy model_of t frame_of 1 = cm_energy model_of t frame_of 2 + cm_energy model_of t frame_of 3)%R /\
    (forall j p, In (j, p) (poles t) -> tree_den model_of p (invariant model_of t frame_of j) <> RtoC 0).
  Proof.
    unfold kin_fits. intros H. do 6 (apply andb_prop in H as [H ?]).
    split; [|split].
    - intros k Hk Hh. rewrite mass_of_point. apply lt_of. assert (I : In k [0; 1; 2; 3]%nat) by (destruct k as [|[|[|[|k]]]]; cbn; auto; lia).
      pose proof (proj1 (forallb_forall _ _) H k I) as X. cbv beta in X. rewrite Hh in X. exact X.
    - cbn [frame_of f_in f_out f_c f_s]. repeat (split; [apply lt_of; assumption|]). split.
      + apply Qeq_bool_eq, Qeq_eqR in H1. rewrite Q2R_plus, !Q2R_mult in H1. rewrite H1. unfold Q2R. cbn. lra.
      + rewrite !energy_of_point by lia. apply Qeq_bool_eq, Qeq_eqR in H0. rewrite !Q2R_plus in H0. exact H0.
    - intros j p Hj E. rewrite (inv_of_point j (poles_lt3 j p Hj)) in E. unfold tree_den, RtoC in E. injection E as E _.
      apply (den_off j p Hj). rewrite Q2R_minus, Q2R_mult, <- mass_of_point. exact E.
  Qed.
End Point.
