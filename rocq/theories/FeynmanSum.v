(** * Four fermions: the sum over spins

    For any complete spinors of the legs the sum over spins of the square of the tree
    amplitude is the sum over the labels of the two-component spinors. *)
From Coq Require Import Reals String Lra Lia.
From Coquelicot Require Import Complex.
From Verif Require Import Base SpinColour Feynman FeynmanAlg.
Open Scope nat_scope.

(** the ends of neutrino lines couple to left-handed currents only *)
Definition left_only (p : process) (b : boson) (f : flavour) : bool := match b with BW => true | BZ => is_neutrino f | _ => false end.
Definition line_ok (p : process) (d : diagram) (k : nat) : bool :=
  (if Nat.eqb k (d_r d) || Nat.eqb k (d_c d) then left_only p (d_boson d) (flavour_of p (d_c d)) else true) &&
  (if Nat.eqb k (d_r' d) || Nat.eqb k (d_c' d) then left_only p (d_boson d) (flavour_of p (d_c' d)) else true).
Definition process_ok (bs : list boson) (p : process) : bool :=
  forallb (fun d => well_formed p d && forallb (fun k => if is_neutrino (flavour_of p k) then line_ok p d k else true) (seq 0 4)) (diagrams bs p).
Definition labels2 (p : process) (k : nat) : list (option bool) := if is_neutrino (flavour_of p k) then [None] else [Some false; Some true].
Definition choices2 (p : process) : list (nat -> option bool) :=
  flat_map (fun a => flat_map (fun b => flat_map (fun c => map (fun d =>
    fun k : nat => match k with 0 => a | 1 => b | 2 => c | _ => d end) (labels2 p 3)) (labels2 p 2)) (labels2 p 1)) (labels2 p 0).

Section SpinSum.
  Variable P : standard_model.
  Variable p : process.
  Variable bs : list boson.
  Hypothesis HOK : process_ok bs p = true.
  Variable q : nat -> nat -> R.
  Variable col : list nat.
  Let F (w : nat -> spin4) : C := feynman_amplitude P p q bs w col.
  Lemma diag_ok d : In d (diagrams bs p) -> well_formed p d = true /\ forall k, k < 4 -> is_neutrino (flavour_of p k) = true -> line_ok p d k = true.
  Proof.
    intros Hd. pose proof (proj1 (forallb_forall _ _) HOK d Hd) as K. cbv beta in K. apply andb_prop in K as [K1 K2]. split; [exact K1|].
    intros k Hk HN. pose proof (proj1 (forallb_forall _ _) K2 k ltac:(apply in_seq; lia)) as X. cbv beta in X. rewrite HN in X. exact X.
  Qed.
  Lemma diag_once d k : In d (diagrams bs p) -> k < 4 -> once d k = true.
  Proof.
    intros Hd Hk. destruct (diag_ok d Hd) as [K _]. unfold well_formed in K. apply andb_prop in K as [_ K].
    apply (proj1 (forallb_forall _ _) K). cbn. lia.
  Qed.
  Lemma diag_ends d k : In d (diagrams bs p) -> In k (ends d) -> k < 4.
  Proof.
    intros Hd Hk. pose proof (diag_once d 0 Hd ltac:(lia)) as H0. pose proof (diag_once d 1 Hd ltac:(lia)) as H1.
    pose proof (diag_once d 2 Hd ltac:(lia)) as H2. pose proof (diag_once d 3 Hd ltac:(lia)) as H3. unfold once in *.
    destruct d as [b i j l m s]. unfold ends in *. cbn [d_r d_c d_r' d_c' filter] in *.
    destruct (le_lt_dec 4 k) as [G|]; [exfalso|assumption].
    cbn in Hk.
    destruct i as [|[|[|[|i]]]]; destruct j as [|[|[|[|j]]]]; try discriminate; destruct l as [|[|[|[|l]]]]; try discriminate;
    destruct m as [|[|[|[|m]]]]; try discriminate; lia.
  Qed.
  Lemma F_ext w w' : (forall k, k < 4 -> w k = w' k) -> F w = F w'.
  Proof.
    intros H. unfold F, feynman_amplitude. apply Csum_ext. intros d Hd. f_equal. unfold diagram_value.
    rewrite (H (d_r d)), (H (d_c d)), (H (d_r' d)), (H (d_c' d)); [reflexivity|..]; apply (diag_ends d _ Hd); unfold ends; cbn; tauto.
  Qed.
  Lemma F_linear k : k < 4 -> linear_in F k.
  Proof.
    intros Hk. apply (linear_Csum (fun d w => Cmult (tensor_at (d_colour p d) col) (diagram_value P p q d w))).
    intros d Hd. apply linear_scal, diagram_linear, diag_once; assumption.
  Qed.
  (** the part of a spinor that left-handed currents do not see *)
  Lemma current_left_col g r x mu : snd g = 0%R -> x 0 = RtoC 0 -> x 1 = RtoC 0 -> current g r x mu = RtoC 0.
  Proof. intros H1 H2 H3. unfold current, sum4, chir. rewrite H1, H2, H3. ring. Qed.
  Lemma current_left_row g x c mu : snd g = 0%R -> x 2 = RtoC 0 -> x 3 = RtoC 0 -> current g x c mu = RtoC 0.
  Proof. intros H1 H2 H3. unfold current, sum4, chir. rewrite H1, H2, H3. unfold gamma. ring. Qed.
  Lemma left_coupling b f : left_only p b f = true -> snd (v_coupling P b f) = 0%R.
  Proof. destruct b; cbn [left_only]; intros H; try discriminate H; [|reflexivity]. cbn. destruct f; try discriminate H; cbn; ring. Qed.
  Lemma dotJ_zero_l J K : (forall mu, J mu = RtoC 0) -> dotJ J K = RtoC 0.
  Proof. intros H. unfold dotJ, sum4. rewrite !H. ring. Qed.
  Lemma dotJ_zero_r J K : (forall mu, K mu = RtoC 0) -> dotJ J K = RtoC 0.
  Proof. intros H. unfold dotJ, sum4. rewrite !H. ring. Qed.
  Lemma numerator_left d w : match d_boson d with BZ | BW => True | _ => False end ->
    (forall mu, current (v_coupling P (d_boson d) (flavour_of p (d_c d))) (w (d_r d)) (w (d_c d)) mu = RtoC 0) \/
    (forall mu, current (v_coupling P (d_boson d) (flavour_of p (d_c' d))) (w (d_r' d)) (w (d_c' d)) mu = RtoC 0) ->
    numerator P p q d w = RtoC 0.
  Proof.
    unfold numerator. destruct (d_boson d); intros H HJ; try contradiction; cbv zeta.
    all: destruct HJ as [HJ|HJ]; [rewrite (dotJ_zero_l _ _ HJ)|rewrite (dotJ_zero_r _ _ HJ)]; rewrite (dotJ_zero_r _ _ HJ); unfold Cdiv; ring.
  Qed.
  Lemma F_right k w x : k < 4 -> is_neutrino (flavour_of p k) = true -> F (upd w k (keep (negb (is_column p k)) x)) = RtoC 0.
  Proof.
    intros Hk HN. unfold F, feynman_amplitude. transitivity (Csum (fun _ : diagram => RtoC 0) (diagrams bs p)).
    2: { clear. induction (diagrams bs p) as [|d l IH]; cbn [Csum]; [reflexivity|]. rewrite IH. ring. }
    apply Csum_ext. intros d Hd. destruct (diag_ok d Hd) as [HW HL]. specialize (HL k Hk HN). pose proof (diag_once d k Hd Hk) as HO.
    rewrite diagram_numerator. unfold line_ok in HL. apply andb_prop in HL as [L1 L2].
    unfold well_formed in HW. apply andb_prop in HW as [HW _]. apply andb_prop in HW as [HW C4]. apply andb_prop in HW as [HW C3]. apply andb_prop in HW as [C1 C2].
    apply negb_true_iff in C1, C3.
    assert (HB : match d_boson d with BZ | BW => True | _ => False end).
    { unfold once, ends in HO. cbn [filter] in HO.
      destruct (d_boson d); try exact I; cbn [left_only] in L1, L2;
      destruct (Nat.eqb k (d_r d)), (Nat.eqb k (d_c d)), (Nat.eqb k (d_r' d)), (Nat.eqb k (d_c' d)); discriminate. }
    rewrite (numerator_left d _ HB); [ring|].
    unfold once, ends in HO. cbn [filter] in HO. unfold upd.
    rewrite (Nat.eqb_sym (d_r d) k), (Nat.eqb_sym (d_c d) k), (Nat.eqb_sym (d_r' d) k), (Nat.eqb_sym (d_c' d) k).
    destruct (Nat.eqb k (d_r d)) eqn:E1; [|destruct (Nat.eqb k (d_c d)) eqn:E2; [|destruct (Nat.eqb k (d_r' d)) eqn:E3; [|destruct (Nat.eqb k (d_c' d)) eqn:E4; [|discriminate HO]]]].
    - left. intros mu. apply Nat.eqb_eq in E1. rewrite E1, C1. cbn [negb]. apply current_left_row; [apply left_coupling; exact L1|reflexivity|reflexivity].
    - left. intros mu. apply Nat.eqb_eq in E2. rewrite E2, C2. cbn [negb]. apply current_left_col; [apply left_coupling; exact L1|reflexivity|reflexivity].
    - right. intros mu. apply Nat.eqb_eq in E3. rewrite E3, C3. cbn [negb]. apply current_left_row; [apply left_coupling; exact L2|reflexivity|reflexivity].
    - right. intros mu. apply Nat.eqb_eq in E4. rewrite E4, C4. cbn [negb]. apply current_left_col; [apply left_coupling; exact L2|reflexivity|reflexivity].
  Qed.

  (** the two-component spinors of the legs *)
  Variable E : nat -> option bool -> ends2.
  Definition leg_fits (k : nat) : Prop :=
    if is_neutrino (flavour_of p k) then sm_mass P (flavour_of p k) = 0%R /\ outer2 (q k) [E k None]
    else outer2 (q k) [E k (Some false); E k (Some true)] /\ cross2 (sm_mass P (flavour_of p k)) [E k (Some false); E k (Some true)].
  Hypothesis HE : forall k, k < 4 -> leg_fits k.
  Variable chi : nat -> bool -> spin4.
  Hypothesis Hchi : forall k, k < 4 -> complete_spinors P p q k (chi k).
  Definition cwave (k : nat) (b : option bool) : spin4 := if is_column p k then colw (kap k) (E k b) else roww (kap k) (E k b).
  Definition gwave (k : nat) (s : bool) : spin4 := if is_column p k then chi k s else bar (chi k s).
  Lemma anti_sign k : (if l_anti (leg_at p k) then - sm_mass P (flavour_of p k) else sm_mass P (flavour_of p k))%R =
    (if is_column p k then - kap k * sm_mass P (flavour_of p k) else kap k * sm_mass P (flavour_of p k))%R.
  Proof. unfold is_column, kap. destruct (l_anti (leg_at p k)), (goes_out k); cbn [Bool.eqb]; ring. Qed.
  Lemma leg_sum k w : k < 4 ->
    rsum (fun x => (Cmod (F (upd w k x)) ^ 2)%R) (map (gwave k) [false; true]) =
    rsum (fun x => (Cmod (F (upd w k x)) ^ 2)%R) (map (cwave k) (labels2 p k)).
  Proof.
    intros Hk. pose proof (HE k Hk) as L. pose proof (Hchi k Hk) as X. unfold leg_fits in L. unfold complete_spinors in X. rewrite anti_sign in X.
    pose proof (given_gram (is_column p k) _ _ _ X) as G. unfold labels2.
    destruct (is_neutrino (flavour_of p k)) eqn:EN.
    - destruct L as [L0 L1].
      assert (M0 : (if is_column p k then - kap k * sm_mass P (flavour_of p k) else kap k * sm_mass P (flavour_of p k))%R = 0%R)
        by (rewrite L0; destruct (is_column p k); ring).
      rewrite M0 in G. pose proof (chiral_gram (is_column p k) (q k) (kap k) (E k None) (kap_one k) L1) as G'.
      rewrite (gram_sum F k w _ (map (fun c => keep c (cwave k None)) [true; false]) (F_linear k Hk)).
      2: { intros a b Ha Hb. etransitivity; [exact (G a b Ha Hb)|]. symmetry. exact (G' a b Ha Hb). }
      cbn [map rsum].
      assert (Z : F (upd w k (cwave k None)) = Cplus (F (upd w k (keep true (cwave k None)))) (F (upd w k (keep false (cwave k None))))).
      { rewrite (F_linear k Hk w (cwave k None)), (F_linear k Hk w (keep true (cwave k None))), (F_linear k Hk w (keep false (cwave k None))).
        unfold sum4, keep. cbn [Nat.ltb Nat.leb Bool.eqb]. ring. }
      rewrite Z. pose proof (F_right k w (cwave k None) Hk EN) as R. destruct (is_column p k); cbn [negb] in R; rewrite R.
      + replace (Cplus (F (upd w k (keep true (cwave k None)))) (RtoC 0)) with (F (upd w k (keep true (cwave k None)))) by ring. rewrite Cmod_0. ring.
      + replace (Cplus (RtoC 0) (F (upd w k (keep false (cwave k None))))) with (F (upd w k (keep false (cwave k None)))) by ring. rewrite Cmod_0. ring.
    - destruct L as [L0 L1]. apply (gram_sum F k w); [exact (F_linear k Hk)|]. intros a b Ha Hb. etransitivity; [exact (G a b Ha Hb)|].
      symmetry. exact (canon_gram (is_column p k) (q k) _ (kap k) _ (kap_one k) L0 L1 a b Ha Hb).
  Qed.

  Definition four (x0 x1 x2 x3 : spin4) (k : nat) : spin4 := match k with 0 => x0 | 1 => x1 | 2 => x2 | _ => x3 end.
  Definition S4 (l0 l1 l2 l3 : list spin4) : R :=
    rsum (fun x0 => rsum (fun x1 => rsum (fun x2 => rsum (fun x3 => (Cmod (F (four x0 x1 x2 x3)) ^ 2)%R) l3) l2) l1) l0.
  Lemma four_upd x0 x1 x2 x3 k x : k < 4 ->
    F (upd (four x0 x1 x2 x3) k x) = match k with 0 => F (four x x1 x2 x3) | 1 => F (four x0 x x2 x3) | 2 => F (four x0 x1 x x3) | _ => F (four x0 x1 x2 x) end.
  Proof.
    intros Hk. destruct k as [|[|[|[|k]]]]; [..|lia]; apply F_ext; intros [|[|[|[|j]]]] Hj; try reflexivity; lia.
  Qed.
  Lemma slot k l l' : k < 4 -> (forall w, rsum (fun x => (Cmod (F (upd w k x)) ^ 2)%R) l = rsum (fun x => (Cmod (F (upd w k x)) ^ 2)%R) l') ->
    forall l0 l1 l2 l3,
    match k with 0 => S4 l l1 l2 l3 = S4 l' l1 l2 l3 | 1 => S4 l0 l l2 l3 = S4 l0 l' l2 l3 | 2 => S4 l0 l1 l l3 = S4 l0 l1 l' l3 | _ => S4 l0 l1 l2 l = S4 l0 l1 l2 l' end.
  Proof.
    intros Hk H l0 l1 l2 l3.
    assert (K : forall x0 x1 x2 x3, rsum (fun x => (Cmod (match k with 0 => F (four x x1 x2 x3) | 1 => F (four x0 x x2 x3) | 2 => F (four x0 x1 x x3) | _ => F (four x0 x1 x2 x) end) ^ 2)%R) l =
                                    rsum (fun x => (Cmod (match k with 0 => F (four x x1 x2 x3) | 1 => F (four x0 x x2 x3) | 2 => F (four x0 x1 x x3) | _ => F (four x0 x1 x2 x) end) ^ 2)%R) l').
    { intros x0 x1 x2 x3. etransitivity; [|etransitivity; [exact (H (four x0 x1 x2 x3))|]]; apply rsum_ext; intros x _; rewrite four_upd by exact Hk; reflexivity. }
    clear H. destruct k as [|[|[|[|k]]]]; [..|lia]; unfold S4.
    - rewrite (rsum_swap _ l), (rsum_swap _ l'). apply rsum_ext; intros x1 _. rewrite (rsum_swap _ l), (rsum_swap _ l'). apply rsum_ext; intros x2 _.
      rewrite (rsum_swap _ l), (rsum_swap _ l'). apply rsum_ext; intros x3 _. exact (K (fun _ => RtoC 0) x1 x2 x3).
    - apply rsum_ext; intros x0 _. rewrite (rsum_swap _ l), (rsum_swap _ l'). apply rsum_ext; intros x2 _.
      rewrite (rsum_swap _ l), (rsum_swap _ l'). apply rsum_ext; intros x3 _. exact (K x0 (fun _ => RtoC 0) x2 x3).
    - apply rsum_ext; intros x0 _. apply rsum_ext; intros x1 _. rewrite (rsum_swap _ l), (rsum_swap _ l'). apply rsum_ext; intros x3 _. exact (K x0 x1 (fun _ => RtoC 0) x3).
    - apply rsum_ext; intros x0 _. apply rsum_ext; intros x1 _. apply rsum_ext; intros x2 _. exact (K x0 x1 x2 (fun _ => RtoC 0)).
  Qed.
  Theorem spin_sum :
    rsum (fun s => (Cmod (F (wave p chi s)) ^ 2)%R) spin_choices =
    rsum (fun t => (Cmod (F (fun k => cwave k (t k))) ^ 2)%R) (choices2 p).
  Proof.
    transitivity (S4 (map (gwave 0) [false; true]) (map (gwave 1) [false; true]) (map (gwave 2) [false; true]) (map (gwave 3) [false; true])).
    { unfold spin_choices, S4. rewrite rsum_flat_map, rsum_map. apply rsum_ext; intros a _. rewrite rsum_flat_map, rsum_map. apply rsum_ext; intros b _.
      rewrite rsum_flat_map, rsum_map. apply rsum_ext; intros c _. rewrite !rsum_map. apply rsum_ext; intros d _.
      do 2 f_equal. apply F_ext. intros [|[|[|[|j]]]] Hj; try reflexivity; lia. }
    rewrite (slot 0 _ _ ltac:(lia) (fun w => leg_sum 0 w ltac:(lia)) [] _ _ _ : S4 _ _ _ _ = S4 _ _ _ _).
    rewrite (slot 1 _ _ ltac:(lia) (fun w => leg_sum 1 w ltac:(lia)) _ [] _ _ : S4 _ _ _ _ = S4 _ _ _ _).
    rewrite (slot 2 _ _ ltac:(lia) (fun w => leg_sum 2 w ltac:(lia)) _ _ [] _ : S4 _ _ _ _ = S4 _ _ _ _).
    rewrite (slot 3 _ _ ltac:(lia) (fun w => leg_sum 3 w ltac:(lia)) _ _ _ [] : S4 _ _ _ _ = S4 _ _ _ _).
    unfold choices2, S4. rewrite rsum_flat_map, rsum_map. apply rsum_ext; intros a _. rewrite rsum_flat_map, rsum_map. apply rsum_ext; intros b _.
    rewrite rsum_flat_map, rsum_map. apply rsum_ext; intros c _. rewrite !rsum_map. apply rsum_ext; intros d _.
    do 2 f_equal. apply F_ext. intros [|[|[|[|j]]]] Hj; try reflexivity; lia.
  Qed.
End SpinSum.
