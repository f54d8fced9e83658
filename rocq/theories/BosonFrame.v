(** * Outer bosons: the centre of mass frame

    Used in proofs only. *)
From Coq Require Import Reals List Bool Lra Lia.
From Coquelicot Require Import Complex.
From Verif Require Import Base Scalar RealNum Linear ParticleProofs SpecSpinor ParticleReal Feynman BosonSpec.
Import ListNotations.
Close Scope nat_scope.
Open Scope R_scope.

Section Frame.
  Variable P : standard_model.
  Variable ts : nat -> ptype.
  Variable F : frame.
  Hypothesis HM : forall k, 0 <= pmass P (ts k).
  Hypothesis Hin : 0 < f_in F.
  Hypothesis Hout : 0 < f_out F.
  Hypothesis Hc : 0 < f_c F.
  Hypothesis Hs : 0 < f_s F.
  Hypothesis Hu : f_c F * f_c F + f_s F * f_s F = 1.
  Notation m k := (pmass P (ts k)).
  Notation pk k := (cm_p F k).
  Notation En k := (cm_energy P ts F k).
  Definition cm_x (k : nat) : R := sqrt (En k + pk k).
  Definition cm_y (k : nat) : R := sqrt (En k - pk k).
  Lemma p_pos k : 0 < pk k.
  Proof. unfold cm_p. destruct (k <? 2)%nat; assumption. Qed.
  Lemma E_sq k : En k * En k = m k * m k + pk k * pk k.
  Proof. apply sqrt_sqrt. pose proof (p_pos k). nra. Qed.
  Lemma E_pos k : 0 <= En k.
  Proof. apply sqrt_pos. Qed.
  Lemma E_ge k : pk k <= En k.
  Proof. pose proof (E_sq k). pose proof (E_pos k). pose proof (p_pos k). pose proof (HM k). apply Rsqr_incr_0; unfold Rsqr; nra. Qed.
  Lemma xx k : cm_x k * cm_x k = En k + pk k.
  Proof. apply sqrt_sqrt. pose proof (E_pos k). pose proof (p_pos k). lra. Qed.
  Lemma yy k : cm_y k * cm_y k = En k - pk k.
  Proof. apply sqrt_sqrt. pose proof (E_ge k). lra. Qed.
  Lemma xy k : cm_x k * cm_y k = m k.
  Proof.
    unfold cm_x, cm_y. rewrite <- sqrt_mult by (pose proof (E_ge k); pose proof (p_pos k); lra).
    replace ((En k + pk k) * (En k - pk k)) with (m k * m k) by (pose proof (E_sq k); lra). apply sqrt_square, HM.
  Qed.
  Lemma x_pos k : 0 < cm_x k.
  Proof. apply sqrt_lt_R0. pose proof (E_pos k). pose proof (p_pos k). lra. Qed.
  Lemma y_nonneg k : 0 <= cm_y k.
  Proof. apply sqrt_pos. Qed.
  Lemma y_le_x k : cm_y k <= cm_x k.
  Proof. apply sqrt_le_1; pose proof (E_ge k); pose proof (p_pos k); lra. Qed.
  Lemma y_zero k : m k = 0 -> cm_y k = 0.
  Proof. intros E. pose proof (xy k) as K. rewrite E in K. apply Rmult_integral in K as [K|K]; [|exact K]. pose proof (x_pos k). lra. Qed.

  (** ** The momenta of the code *)
  Definition cm_q (k : nat) : vec4 R := V4 (cm_mom P ts F k 0) (cm_mom P ts F k 1) (cm_mom P ts F k 2) (cm_mom P ts F k 3).
  Lemma cs_unit k : cm_c F k * cm_c F k + cm_s F k * cm_s F k = 1.
  Proof. destruct k as [|[|[|k]]]; cbn [cm_c cm_s]; lra. Qed.
  Lemma c_nonneg k : 0 <= cm_c F k.
  Proof. destruct k as [|[|[|k]]]; cbn [cm_c]; lra. Qed.
  Lemma q_pmag k : Pmag (cm_q k) = pk k.
  Proof.
    pose proof (Pmag_sq (cm_q k)) as S. pose proof (Pmag_nonneg (cm_q k)) as N. pose proof (p_pos k) as H.
    apply Rsqr_inj; [exact N|lra|]. unfold Rsqr. rewrite S. unfold cm_q. cbn [v_1 v_2 v_3 cm_mom].
    transitivity (pk k * pk k * ((cm_c F k * cm_c F k + cm_s F k * cm_s F k) * (cm_c F k * cm_c F k + cm_s F k * cm_s F k))); [ring|rewrite cs_unit; ring].
  Qed.
  Lemma q_shell k : on_shell (m k) (cm_q k).
  Proof.
    unfold on_shell, minksq. pose proof (Pmag_sq (cm_q k)) as S. rewrite q_pmag in S. pose proof (E_sq k) as E.
    change (v_0 (cm_q k)) with (En k). lra.
  Qed.
  Lemma q_energy k : 0 <= v_0 (cm_q k).
  Proof. apply E_pos. Qed.
  Lemma q_rtp k : rtp (cm_q k) = cm_x k.
  Proof. unfold rtp. rewrite q_pmag. reflexivity. Qed.
  Lemma q_rtm k : rtm (cm_q k) = cm_y k.
  Proof. unfold rtm. rewrite q_pmag. reflexivity. Qed.
  Lemma q_hc k : hc (cm_q k) = cm_c F k.
  Proof.
    pose proof (proj1 (Pmag_theta (cm_q k))) as T. rewrite q_pmag, cos_theta_half in T. unfold cm_q in T at 5. cbn [v_3 cm_mom] in T.
    pose proof (p_pos k) as H. apply Rmult_eq_reg_l in T; [|lra]. pose proof (hc_hs (cm_q k)) as U. pose proof (cs_unit k) as V.
    apply Rsqr_inj; [apply hc_nonneg|apply c_nonneg|]. unfold Rsqr. lra.
  Qed.
  Lemma q_hsx k : (k < 4)%nat -> hsx (cm_q k) = cm_s F k /\ hsy (cm_q k) = 0.
  Proof.
    intros Hk. destruct (Nat.eq_dec k 1) as [->|N1].
    - assert (Ph : phi (cm_q 1) = 0).
      { unfold phi, cm_q. cbn [v_1 v_2 cm_mom cm_c cm_s]. replace (pk 1 * (2 * 0 * 1)) with 0 by ring. unfold Ratan2. repeat destruct Rlt_dec; try lra. }
      unfold hsx, hsy. rewrite Ph, cos_0, sin_0. split; [|ring]. pose proof (hc_hs (cm_q 1)) as U. rewrite q_hc in U. cbn [cm_c cm_s] in *.
      pose proof (hs_nonneg (cm_q 1)) as N. rewrite Rmult_1_r. apply Rsqr_inj; [exact N|lra|]. unfold Rsqr. lra.
    - assert (C : 0 < cm_c F k) by (destruct k as [|[|[|[|k]]]]; cbn [cm_c]; try lra; lia).
      pose proof (mom1_half (cm_q k)) as A. pose proof (mom2_half (cm_q k)) as B. rewrite q_pmag, q_hc in A, B. unfold cm_q in A at 1. unfold cm_q in B at 1. cbn [v_1 v_2 cm_mom] in A, B.
      pose proof (p_pos k) as H. apply Rmult_eq_reg_l in A; [|lra]. split; [nra|]. assert (K : (pk k * (2 * cm_c F k)) * hsy (cm_q k) = 0) by lra.
      apply Rmult_integral in K as [K|K]; [nra|exact K].
  Qed.
  (** the matrices of the momenta *)
  Lemma q_plus k : v_0 (cm_q k) + v_3 (cm_q k) = cm_x k * cm_x k * (cm_c F k * cm_c F k) + cm_y k * cm_y k * (cm_s F k * cm_s F k).
  Proof. rewrite xx, yy. unfold cm_q. cbn [v_0 v_3 cm_mom]. transitivity (En k * (cm_c F k * cm_c F k + cm_s F k * cm_s F k) + pk k * (cm_c F k * cm_c F k - cm_s F k * cm_s F k)); [rewrite cs_unit; ring|ring]. Qed.
  Lemma q_minus k : v_0 (cm_q k) - v_3 (cm_q k) = cm_x k * cm_x k * (cm_s F k * cm_s F k) + cm_y k * cm_y k * (cm_c F k * cm_c F k).
  Proof. rewrite xx, yy. unfold cm_q. cbn [v_0 v_3 cm_mom]. transitivity (En k * (cm_c F k * cm_c F k + cm_s F k * cm_s F k) - pk k * (cm_c F k * cm_c F k - cm_s F k * cm_s F k)); [rewrite cs_unit; ring|ring]. Qed.
  Lemma q_one k : v_1 (cm_q k) = (cm_x k * cm_x k - cm_y k * cm_y k) * (cm_c F k * cm_s F k).
  Proof. rewrite xx, yy. unfold cm_q. cbn [v_1 cm_mom]. ring. Qed.
  (** s, t and u *)
  Definition half (k j : nat) : R :=
    (v_0 (cm_q k) + v_3 (cm_q k)) * (v_0 (cm_q j) - v_3 (cm_q j)) + (v_0 (cm_q k) - v_3 (cm_q k)) * (v_0 (cm_q j) + v_3 (cm_q j)) - 2 * (v_1 (cm_q k) * v_1 (cm_q j)).
  Lemma q_invariant j : invariant P ts F j = m 0%nat * m 0%nat + m (S j) * m (S j) + (match j with 0%nat => 1 | _ => -1 end) * half 0 (S j).
  Proof.
    pose proof (q_shell 0) as S0. pose proof (q_shell (S j)) as S1. unfold on_shell, minksq in S0, S1. rewrite <- S0, <- S1.
    unfold invariant, square4, transfer, ingoing, half, cm_q. cbn [v_0 v_1 v_2 v_3]. destruct j as [|j]; cbn [goes_out Nat.leb cm_mom]; ring.
  Qed.
  Hypothesis HE : En 0%nat + En 1%nat = En 2%nat + En 3%nat.
  Lemma q_conserved mu : ingoing (cm_mom P ts F) 0 mu + ingoing (cm_mom P ts F) 1 mu + ingoing (cm_mom P ts F) 2 mu + ingoing (cm_mom P ts F) 3 mu = 0.
  Proof.
    unfold ingoing. cbn [goes_out Nat.leb]. destruct mu as [|[|[|mu]]]; cbn [cm_mom cm_c cm_s]; try lra; unfold cm_p; cbn [Nat.ltb Nat.leb]; ring.
  Qed.
  Lemma sum01 : cm_x 0 * cm_x 0 + cm_y 1 * cm_y 1 = En 0%nat + En 1%nat.
  Proof. rewrite xx, yy. unfold cm_p. cbn [Nat.ltb Nat.leb]. ring. Qed.
  Lemma sum10 : cm_x 1 * cm_x 1 + cm_y 0 * cm_y 0 = En 0%nat + En 1%nat.
  Proof. rewrite xx, yy. unfold cm_p. cbn [Nat.ltb Nat.leb]. ring. Qed.
  Lemma sum23 : cm_x 2 * cm_x 2 + cm_y 3 * cm_y 3 = En 0%nat + En 1%nat.
  Proof. rewrite HE, xx, yy. unfold cm_p. cbn [Nat.ltb Nat.leb]. ring. Qed.
  Lemma sum32 : cm_x 3 * cm_x 3 + cm_y 2 * cm_y 2 = En 0%nat + En 1%nat.
  Proof. rewrite HE, xx, yy. unfold cm_p. cbn [Nat.ltb Nat.leb]. ring. Qed.
End Frame.
