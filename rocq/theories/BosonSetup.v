(** * Outer bosons: the values of the variables of BosonCode.v

    Used in proofs only. *)
From Coq Require Import Reals QArith Qreals List Bool String Lra Lia.
From Coquelicot Require Import Complex.
From Verif Require Import Base Scalar RealNum Linear ParticleProofs SpecSpinor ParticleReal Lang Sym SMNames SMAll Feynman FeynmanAlg FeynmanTable
  BosonSpec BosonHom Tower BosonCode BosonKin BosonFrame.
Import ListNotations.
Close Scope Q_scope.
Close Scope nat_scope.
Open Scope R_scope.

(** ** The model of a class: its parameters; what it does not take is 0.  massf is the mass of
    the quarks that come in or go out.  Classes that take v, and neither sw nor mW, have no W or Z:
    any sw will do, and v = 2 mW sw / e gives mW. *)
Definition b_model (e : bentry) (v : nat -> R) : standard_model :=
  let c := b_cls e in let P := sm_of c v in
  mkSM (sm_e P) (if has c n_gcharge then par c v n_gcharge else sm_gs P) (if has c n_vev then 3 / 5 else sm_sw P)
    (if has c n_vev then par c v n_vev * sm_e P / (2 * (3 / 5)) else sm_mW P) (sm_mh P) (par c v n_widthZ) (par c v n_widthW) (par c v n_widthh)
    (fun f => match mass_name c f with
              | Some x => if Pos.eqb x n_massf then match find_leg e (Mtf f) with Some _ => par c v x | None => 0 end else par c v x
              | None => 0 end).

(** ** What is checked of a class *)
Definition flavours : list flavour := [Fe; Fm; Fl; Fne; Fnm; Fnl; Fu; Fc; Ft; Fd; Fs; Fb].
Lemma flavours_in f : In f flavours.
Proof. destruct f; cbn; tauto. Qed.
(** a mass that the class takes though no leg has it *)
Definition lonely (e : bentry) (f : flavour) : bool :=
  match mass_name (b_cls e) f with
  | Some x => if existsb (Pos.eqb x) (b_zero e) then false else if has (b_cls e) x then match find_leg e (Mtf f) with Some _ => false | None => negb (existsb (Pos.eqb n_massf) [x]) end else false
  | None => false end.
Definition lone (e : bentry) : flavour := match find (lonely e) flavours with Some f => f | None => Fe end.
Definition setup_fits (e : bentry) : bool :=
  let c := b_cls e in
  kid_fits (b_kin e) (fun k => tag_of (ts e k)) &&
  (if weakly c then negb (has c n_vev && (has c n_sinW || has c n_massW)) else negb (has c n_massW) && match find_leg e MtW, find_leg e MtZ with None, None => true | _, _ => false end) &&
  (if has c n_massf then negb (has c n_massu) && negb (has c n_massd) && match find_leg e (Mtf Fu), find_leg e (Mtf Fd) with None, None => false | _, _ => true end else true) &&
  forallb (fun f => implb (lonely e f) (flavour_eqb f (lone e))) flavours &&
  forallb (fun k => match nth_error (c_params c) k with Some x => match index x (c_params c) with Some j => Nat.eqb j k | None => false end | None => false end) (seq 0 (length (c_params c))).

Lemma flavour_eqb_eq f g : flavour_eqb f g = true -> f = g.
Proof. destruct f, g; cbn; congruence. Qed.

Lemma sinj {A} (a b : A) : Some a = Some b -> a = b.
Proof. congruence. Qed.
Lemma mom_values (w : tow -> C) (p : vec tow) (x y a b : R) (im : C) :
  vmap w p = momK CO (mkKleg (RtoC x) (RtoC y) (RtoC a) (RtoC b) im) ->
  w (v_p p) = RtoC (x * x * (a * a) + y * y * (b * b)) /\ w (v_m p) = RtoC (x * x * (b * b) + y * y * (a * a)) /\
  w (v_t p) = RtoC ((x * x - y * y) * (a * b)) /\ w (v_b p) = RtoC ((x * x - y * y) * (a * b)).
Proof.
  unfold vmap, momK. cbn [k_x k_y k_c k_s o_add o_mul o_neg CO]. intros K. injection K as K1 K2 K3 K4. rewrite K1, K2, K3, K4. unfold Rminus. 
  rewrite ?RtoC_plus, ?RtoC_mult, ?RtoC_plus, ?RtoC_opp, ?RtoC_mult. split; [ring|]. split; [ring|]. split; ring.
Qed.
Section Setup.
  Variable e : bentry.
  Notation c := (b_cls e).
  Hypothesis Hfit : setup_fits e = true.
  Variable v : nat -> R.
  Notation P := (b_model e v).
  Notation t := (ts e).
  Variable F : frame.
  Hypothesis HM : forall k, 0 <= pmass P (t k).
  Hypothesis Hin : 0 < f_in F.
  Hypothesis Hout : 0 < f_out F.
  Hypothesis Hc : 0 < f_c F.
  Hypothesis Hs : 0 < f_s F.
  Hypothesis Hu : f_c F * f_c F + f_s F * f_s F = 1.
  Hypothesis HE : cm_energy P t F 0 + cm_energy P t F 1 = cm_energy P t F 2 + cm_energy P t F 3.
  Hypothesis HW : weakly c = true -> 0 < sm_sw P < 1 /\ 0 < sm_mW P.
  Hypothesis Hzero : forall x, In x (b_zero e) -> par c v x = 0.
  Hypothesis Hwidth : b_narrow e = true -> par c v n_widthW = 0 /\ par c v n_widthZ = 0 /\ par c v n_widthh = 0.
  Variable sl : lv -> C.
  Notation X := (cm_x P t F).
  Notation Y := (cm_y P t F).
  Notation tags := (fun k => tag_of (t k)).
  Notation kn := (kin_of (b_kin e) (fun k => mtag_eqb (tag_of (t k)) M0)).
  Definition rho (l : lv) : C :=
    match l with
    | vE => RtoC (sm_e P) | vGS => RtoC (sm_gs P) | vISW => RtoC (/ sm_sw P) | vSW => RtoC (sm_sw P) | vICW => RtoC (/ sm_cw P)
    | vIMW => RtoC (/ sm_mW P) | vIMa => RtoC (/ sm_mW P) | vIMb => RtoC (/ (sm_mW P / sm_cw P)) | vHalf => RtoC (/ 2) | vThird => RtoC (/ 3)
    | vQ => RtoC (sqrt 2) | vS => RtoC (f_s F) | vC => RtoC (f_c F) | vCW => RtoC (sm_cw P) | vMW => RtoC (sm_mW P) | vMH => RtoC (sm_mh P)
    | vFM => RtoC (sm_mass P (lone e))
    | v18 | v19 | v20 | v21 | v22 | v23 | v24 | v25 => RtoC (qv X Y (n_q kn l))
    | v2 | v3 | v4 | v5 | v6 | v7 => sl l
    | vV => RtoC (par c v n_vev) end.
  Notation W := (weval rho).

  Ltac fit H := let K := fresh in pose proof Hfit as K; unfold setup_fits in K; cbv zeta in K; repeat (apply andb_prop in K; let A := fresh in destruct K as [K A]; try (pose proof A as H; clear A; fail)).
  Lemma fit_kid : kid_fits (b_kin e) tags = true.
  Proof. unfold setup_fits in Hfit. cbv zeta in Hfit. repeat (apply andb_prop in Hfit; destruct Hfit as [Hfit' ?]; clear Hfit; rename Hfit' into Hfit). exact Hfit. Qed.
  Lemma fit_weak : weakly c = false -> has c n_massW = false /\ find_leg e MtW = None /\ find_leg e MtZ = None.
  Proof.
    intros H. pose proof Hfit as K. unfold setup_fits in K. cbv zeta in K. do 3 (apply andb_prop in K; destruct K as [K _]). apply andb_prop in K as [_ K].
    rewrite H in K. apply andb_prop in K as [K1 K2]. apply negb_true_iff in K1. destruct (find_leg e MtW); [discriminate K2|]. destruct (find_leg e MtZ); [discriminate K2|]. auto.
  Qed.
  Lemma fit_vev : has c n_vev = true -> has c n_sinW = false /\ has c n_massW = false.
  Proof.
    intros H. pose proof Hfit as K. unfold setup_fits in K. cbv zeta in K. do 3 (apply andb_prop in K; destruct K as [K _]). apply andb_prop in K as [_ K].
    unfold weakly in K. rewrite H, orb_true_r in K. apply negb_true_iff in K. apply orb_false_elim in K. exact K.
  Qed.
  Lemma fit_massf : has c n_massf = true -> has c n_massu = false /\ has c n_massd = false /\ (find_leg e (Mtf Fu) <> None \/ find_leg e (Mtf Fd) <> None).
  Proof.
    intros H. pose proof Hfit as K. unfold setup_fits in K. cbv zeta in K. do 2 (apply andb_prop in K; destruct K as [K _]). apply andb_prop in K as [_ K].
    rewrite H in K. apply andb_prop in K as [K K3]. apply andb_prop in K as [K1 K2]. apply negb_true_iff in K1. apply negb_true_iff in K2.
    split; [exact K1|]. split; [exact K2|]. destruct (find_leg e (Mtf Fu)); [left; discriminate|]. destruct (find_leg e (Mtf Fd)); [right; discriminate|discriminate K3].
  Qed.
  Lemma fit_lone f : lonely e f = true -> f = lone e.
  Proof.
    intros H. pose proof Hfit as K. unfold setup_fits in K. cbv zeta in K. apply andb_prop in K as [K _]. apply andb_prop in K as [_ K].
    pose proof (proj1 (forallb_forall _ _) K f (flavours_in f)) as L. cbv beta in L. rewrite H in L. exact (flavour_eqb_eq _ _ L).
  Qed.
  Lemma fit_index k x : nth_error (c_params c) k = Some x -> index x (c_params c) = Some k.
  Proof.
    intros H. pose proof Hfit as K. unfold setup_fits in K. cbv zeta in K. apply andb_prop in K as [_ K].
    assert (Hk : (k < length (c_params c))%nat) by (apply nth_error_Some; congruence).
    pose proof (proj1 (forallb_forall _ _) K k ltac:(apply in_seq; lia)) as L. cbv beta in L. rewrite H in L.
    destruct (index x (c_params c)) as [j|]; [|discriminate L]. apply Nat.eqb_eq in L. congruence.
  Qed.
  Lemma par_none x : has c x = false -> par c v x = 0.
  Proof. unfold has, par. destruct (index x (c_params c)); [discriminate|reflexivity]. Qed.

  Lemma tag_mass a b : mtag_eqb (tag_of (t a)) (tag_of (t b)) = true -> pmass P (t a) = pmass P (t b).
  Proof.
    assert (NU : forall f, is_neutrino f = true -> sm_mass P f = 0) by (intros f H; destruct f; try discriminate H; reflexivity).
    destruct (t a) as [| | | | | |f|f], (t b) as [| | | | | |g|g]; cbn [tag_of pmass]; intros H; try reflexivity; try discriminate H;
      repeat match type of H with context [if is_neutrino ?f then _ else _] => let N := fresh "N" in destruct (is_neutrino f) eqn:N; try (rewrite (NU f N)) end; try reflexivity; try discriminate H.
    all: cbn [mtag_eqb] in H; apply flavour_eqb_eq in H; subst; reflexivity.
  Qed.
  Lemma tag_zero a : mtag_eqb (tag_of (t a)) M0 = true -> pmass P (t a) = 0.
  Proof.
    assert (NU : forall f, is_neutrino f = true -> sm_mass P f = 0) by (intros f H; destruct f; try discriminate H; reflexivity).
    destruct (t a) as [| | | | | |f|f]; cbn [tag_of pmass]; intros H; try reflexivity; try discriminate H; destruct (is_neutrino f) eqn:N; try discriminate H; exact (NU f N).
  Qed.
  Lemma kin_is_good : kin_good X Y rho kn.
  Proof.
    apply (kin_ok X Y (x_pos P t F Hin Hout) (y_nonneg P t F) (y_le_x P t F HM Hin Hout) _ (sum01 P t F HM Hin Hout) (sum10 P t F HM Hin Hout)
      (sum23 P t F HM Hin Hout HE) (sum32 P t F HM Hin Hout HE) tags).
    - intros a b H. rewrite !xy by assumption. exact (tag_mass a b H).
    - intros a H. apply y_zero; try assumption. exact (tag_zero a H).
    - exact fit_kid.
    - intros l Hl. cbn [In] in Hl. repeat destruct Hl as [<-|Hl]; try contradiction; reflexivity.
  Qed.
  Lemma n_mass k : (k < 4)%nat -> W (wmul (fun _ => None) wfuel (n_x kn k) (n_y kn k)) = RtoC (pmass P (t k)).
  Proof.
    intros Hk. rewrite wmul_ok by discriminate. destruct (proj1 kin_is_good k Hk) as [A B]. rewrite A, B, <- RtoC_mult, xy by assumption. reflexivity.
  Qed.
  Lemma leg_found tg k : find_leg e tg = Some k -> (k < 4)%nat /\ mtag_eqb (tag_of (t k)) tg = true.
  Proof. unfold find_leg. intros H. apply find_some in H as [H1 H2]. split; [|exact H2]. cbn in H1. repeat destruct H1 as [<-|H1]; try contradiction; lia. Qed.
  Lemma W_leg k : find_leg e MtW = Some k -> (k < 4)%nat /\ pmass P (t k) = sm_mW P.
  Proof.
    intros H. apply leg_found in H as [H1 H2]. split; [exact H1|]. destruct (t k) as [| | | | | |f|f]; cbn [tag_of] in H2; try discriminate H2; try reflexivity;
      destruct (is_neutrino f); discriminate H2.
  Qed.
  Lemma Z_leg k : find_leg e MtZ = Some k -> (k < 4)%nat /\ pmass P (t k) = sm_mW P / sm_cw P.
  Proof.
    intros H. apply leg_found in H as [H1 H2]. split; [exact H1|]. destruct (t k) as [| | | | | |f|f]; cbn [tag_of] in H2; try discriminate H2; try reflexivity;
      destruct (is_neutrino f); discriminate H2.
  Qed.
  Lemma h_leg k : find_leg e Mth = Some k -> (k < 4)%nat /\ pmass P (t k) = sm_mh P.
  Proof.
    intros H. apply leg_found in H as [H1 H2]. split; [exact H1|]. destruct (t k) as [| | | | | |f|f]; cbn [tag_of] in H2; try discriminate H2; try reflexivity;
      destruct (is_neutrino f); discriminate H2.
  Qed.
  Lemma f_leg f k : find_leg e (Mtf f) = Some k -> (k < 4)%nat /\ pmass P (t k) = sm_mass P f.
  Proof.
    intros H. apply leg_found in H as [H1 H2]. split; [exact H1|]. destruct (t k) as [| | | | | |g|g]; cbn [tag_of] in H2; try discriminate H2;
      destruct (is_neutrino g); try discriminate H2; cbn [mtag_eqb] in H2; apply flavour_eqb_eq in H2; subst g; reflexivity.
  Qed.
  Lemma cw_sq : weakly c = true -> sm_cw P * sm_cw P = 1 - sm_sw P * sm_sw P /\ 0 < sm_cw P.
  Proof. intros H. destruct (HW H) as [[A B] _]. unfold sm_cw. split; [apply sqrt_sqrt; nra|apply sqrt_lt_R0; nra]. Qed.

  (** ** The rules, with any propagators *)
  Variable slots : list (lv * (nat * (tow * option id))).
  Notation s := (with_slots (setup0 e) slots).
  Ltac rhos := repeat match goal with |- context [weval rho (wvar ?l)] => rewrite (wvar_ok rho l) end; cbn [rho].
  Lemma cw_eval : weakly c = true -> W (c_cw (u_E (setup0 e))) = RtoC (sm_cw P).
  Proof.
    intros H. destruct (cw_sq H) as [_ C1]. destruct (HW H) as [_ C2]. unfold setup0. cbv zeta. cbn [u_E c_cw]. rewrite H.
    destruct (find_leg e MtW) as [a|] eqn:Ea; [destruct (find_leg e MtZ) as [b|] eqn:Eb|]; [|rhos; reflexivity..].
    destruct (W_leg a Ea) as [Ha Ma]. rewrite wmul_ok by discriminate. rewrite (n_mass a Ha), Ma. rhos. rewrite <- RtoC_mult. f_equal. field. split; lra.
  Qed.
  Lemma rule_ok l r : rule s l = Some r -> (rho l * rho l = W r)%C.
  Proof.
    intros H. destruct kin_is_good as [_ KR].
    assert (K : forall l, l = v18 \/ l = v19 \/ l = v20 \/ l = v21 -> rule s l = kin_rule kn l) by (intros l' [->|[->|[->| ->]]]; reflexivity).
    destruct l; try discriminate H; try (apply KR; rewrite <- K by tauto; exact H).
    - change (rule s vSW) with (u_r9 (setup0 e)) in H. unfold setup0 in H. cbv zeta in H. cbn [u_r9] in H. case_eq (weakly c); intros Ew; rewrite Ew in H; [|discriminate H]. apply sinj in H; rewrite <- H; clear H.
      pose proof (cw_eval Ew) as C. unfold setup0 in C. cbv zeta in C. cbn [u_E c_cw] in C. rewrite Ew in C.
      rewrite wsub_ok, (wmul_ok rho (kin_rule kn) KR), C. cbn [rho weval]. destruct (cw_sq Ew) as [C1 _].
      rewrite <- !RtoC_mult, C1. unfold Rminus. rewrite RtoC_plus, RtoC_opp. change (IZR 1) with 1. rewrite RtoC_mult. ring.
    - apply sinj in H; rewrite <- H; clear H. cbn [rho weval]. rewrite <- RtoC_mult, sqrt_sqrt by lra. reflexivity.
    - change (rule s vS) with r17 in H. apply sinj in H; rewrite <- H; clear H. change (WN vS (WL 0) (WL 1)) with (wvar vS). rewrite wsub_ok, (ev_sq rho vC (f_c F) eq_refl). cbn [rho weval].
      rewrite <- RtoC_mult. replace (f_s F * f_s F) with (1 - f_c F * f_c F) by lra. unfold Rminus. rewrite RtoC_plus, RtoC_opp. reflexivity.
  Qed.
  Lemma Mu_ok p q : W (Mu s p q) = (W p * W q)%C.
  Proof. apply wmul_ok. exact rule_ok. Qed.

  (** ** The numbers of the model *)
  Lemma E_ok : consts_hom W (u_E s) (constsC P).
  Proof.
    change (u_E s) with (u_E (setup0 e)).
    assert (NW : weakly c = false -> sm_sw P = 0 /\ sm_mW P = 0).
    { intros H. destruct (fit_weak H) as (A & _ & _). pose proof H as H'. unfold weakly in H'. apply orb_false_elim in H' as [B D].
      cbn [b_model sm_sw sm_mW]. rewrite D. split; [exact (par_none n_sinW B)|exact (par_none n_massW A)]. }
    assert (NC : weakly c = false -> sm_cw P = 1).
    { intros H. destruct (NW H) as [A _]. unfold sm_cw. rewrite A. replace (1 - 0 * 0) with 1 by ring. apply sqrt_1. }
    constructor.
    - unfold setup0. cbv zeta. cbn [u_E c_half constsC]. rhos. reflexivity.
    - unfold setup0. cbv zeta. cbn [u_E c_third constsC]. rhos. reflexivity.
    - unfold setup0. cbv zeta. cbn [u_E c_sq2 constsC]. rhos. reflexivity.
    - unfold setup0. cbv zeta. cbn [u_E c_sw constsC]. case_eq (weakly c); intros Ew; [rhos; reflexivity|]. rewrite (proj1 (NW Ew)). reflexivity.
    - unfold setup0. cbv zeta. cbn [u_E c_isw constsC]. case_eq (weakly c); intros Ew; [rhos; reflexivity|]. rewrite (proj1 (NW Ew)), Rinv_0. reflexivity.
    - case_eq (weakly c); intros Ew; [exact (cw_eval Ew)|]. unfold setup0. cbv zeta. cbn [u_E c_cw constsC]. rewrite Ew, (NC Ew). reflexivity.
    - unfold setup0. cbv zeta. cbn [u_E c_icw constsC]. case_eq (weakly c); intros Ew; [|rewrite (NC Ew), Rinv_1; reflexivity].
      destruct (cw_sq Ew) as [_ C1]. destruct (HW Ew) as [_ C2].
      destruct (find_leg e MtW) as [a|] eqn:Ea; [destruct (find_leg e MtZ) as [b|] eqn:Eb|]; [|rhos; reflexivity..].
      destruct (Z_leg b Eb) as [Hb Mb]. rewrite wmul_ok by discriminate. rewrite (n_mass b Hb), Mb. rhos. rewrite <- RtoC_mult. f_equal. field. split; lra.
    - unfold setup0. cbv zeta. cbn [u_E c_mW constsC]. case_eq (weakly c); intros Ew; [|rewrite (proj2 (NW Ew)); reflexivity].
      destruct (cw_sq Ew) as [_ C1]. destruct (HW Ew) as [_ C2].
      destruct (find_leg e MtW) as [a|] eqn:Ea; [|destruct (find_leg e MtZ) as [b|] eqn:Eb].
      + destruct (W_leg a Ea) as [Ha Ma]. rewrite (n_mass a Ha), Ma. reflexivity.
      + destruct (Z_leg b Eb) as [Hb Mb]. rewrite wmul_ok by discriminate. rewrite (n_mass b Hb), Mb. rhos. rewrite <- RtoC_mult. f_equal. field. lra.
      + rhos. reflexivity.
    - unfold setup0. cbv zeta. cbn [u_E c_imW constsC]. case_eq (weakly c); intros Ew; [|rewrite (proj2 (NW Ew)), Rinv_0; reflexivity].
      destruct (cw_sq Ew) as [_ C1]. destruct (HW Ew) as [_ C2].
      destruct (find_leg e MtW) as [a|] eqn:Ea; [|destruct (find_leg e MtZ) as [b|] eqn:Eb]; [rhos; reflexivity| |rhos; reflexivity].
      rewrite wmul_ok by discriminate. rhos. rewrite <- RtoC_mult. f_equal. field. split; lra.
    - unfold setup0. cbv zeta. cbn [u_E c_mh constsC]. destruct (find_leg e Mth) as [k|] eqn:Ek.
      + destruct (h_leg k Ek) as [Hk Mk]. rewrite (n_mass k Hk), Mk. reflexivity.
      + destruct (has c n_massh) eqn:Eh; [rhos; reflexivity|]. cbn [b_model sm_mh sm_of]. rewrite (par_none n_massh Eh). reflexivity.
    - intros f. unfold setup0. cbv zeta. cbn [u_E c_fm constsC].
      assert (MF : sm_mass P f = match mass_name c f with
        | Some x => if Pos.eqb x n_massf then match find_leg e (Mtf f) with Some _ => par c v x | None => 0 end else par c v x | None => 0 end) by reflexivity.
      destruct (mass_name c f) as [x|] eqn:Ex; [|rewrite MF; reflexivity].
      destruct (existsb (Pos.eqb x) (b_zero e)) eqn:Ez.
      { apply existsb_exists in Ez as (y & Hy & Ey). apply Pos.eqb_eq in Ey. subst y. rewrite MF, (Hzero x Hy). destruct (Pos.eqb x n_massf); [destruct (find_leg e (Mtf f))|]; reflexivity. }
      destruct (has c x) eqn:Eh.
      + destruct (find_leg e (Mtf f)) as [k|] eqn:Ek; [destruct (f_leg f k Ek) as [Hk Mk]; rewrite (n_mass k Hk), Mk; reflexivity|].
        cbn [existsb]. rewrite (Pos.eqb_sym n_massf x), orb_false_r. destruct (Pos.eqb x n_massf) eqn:Ef; [rewrite MF; reflexivity|].
        rhos. f_equal. f_equal. symmetry. apply fit_lone. unfold lonely. rewrite Ex, Ez, Eh, Ek. cbn [existsb]. rewrite (Pos.eqb_sym n_massf x), Ef. reflexivity.
      + rewrite MF, (par_none x Eh). destruct (Pos.eqb x n_massf); [destruct (find_leg e (Mtf f))|]; reflexivity.
  Qed.

  (** ** The legs *)
  Lemma leg_ok k : (k < 4)%nat -> lmap W (legP s k) = cm_leg P t F k.
  Proof.
    intros Hk. destruct (proj1 kin_is_good k Hk) as [A B].
    assert (I : W (match tag_of (t k) with MtW => wvar vIMa | MtZ => wvar vIMb | _ => WL 0 end) = RtoC (match t k with PZ | PWp | PWm => / pmass P (t k) | _ => 0 end)).
    { destruct (t k) as [| | | | | |f|f]; cbn [tag_of pmass]; rhos; try reflexivity; destruct (is_neutrino f); reflexivity. }
    unfold lmap, cm_leg. destruct k as [|[|[|[|k]]]]; [..|lia];
      cbn [legP with_slots u_leg0 u_leg1 u_leg2 u_leg3]; unfold setup0; cbv zeta; cbn [u_leg0 u_leg1 u_leg2 u_leg3 k_x k_y k_c k_s k_im cm_c cm_s];
      rewrite A, B, I, ?wneg_ok; rhos; rewrite ?RtoC_opp; reflexivity.
  Qed.
  Lemma mass_leg k : (k < 4)%nat -> W (massP (legP s k)) = RtoC (pmass P (t k)).
  Proof.
    intros Hk. unfold massP. rewrite wmul_ok by discriminate. pose proof (leg_ok k Hk) as L. unfold lmap, cm_leg in L. injection L as L1 L2 _ _ _. rewrite L1, L2.
    fold (cm_x P t F k) (cm_y P t F k). rewrite <- RtoC_mult, xy by assumption. reflexivity.
  Qed.
  Lemma PO_hom : (forall z, W (o_Z (PO s) z) = o_Z CO z) /\ (forall x y, W (o_add (PO s) x y) = o_add CO (W x) (W y)) /\
    (forall x y, W (o_mul (PO s) x y) = o_mul CO (W x) (W y)) /\ (forall x, W (o_neg (PO s) x) = o_neg CO (W x)).
  Proof. repeat split; [exact (wadd_ok rho)|exact Mu_ok|exact (wneg_ok rho)]. Qed.
  Lemma mom_ok k : (k < 4)%nat ->
    let q := cm_q P t F k in let p := momK (PO s) (legP s k) in
    W (v_p p) = RtoC (v_0 q + v_3 q) /\ W (v_m p) = RtoC (v_0 q - v_3 q) /\ W (v_t p) = RtoC (v_1 q) /\ W (v_b p) = RtoC (v_1 q) /\ v_2 q = 0.
  Proof.
    intros Hk q p. destruct PO_hom as (HZ & HA & HMl & HN).
    pose proof (h_mom (PO s) CO W HA HMl HN (legP s k)) as K. rewrite (leg_ok k Hk) in K.
    destruct (mom_values W _ _ _ _ _ _ K) as (K1 & K2 & K3 & K4).
    unfold q. rewrite (q_plus P t F HM Hin Hout Hu), (q_minus P t F HM Hin Hout Hu), (q_one P t F HM Hin Hout).
    split; [exact K1|]. split; [exact K2|]. split; [exact K3|]. split; [exact K4|reflexivity].
  Qed.
  Lemma inv_ok j : (j < 3)%nat -> W (invP s j) = RtoC (invariant P t F j).
  Proof.
    intros Hj. unfold invP. cbv zeta. change (u_leg0 s) with (legP s 0).
    rewrite q_invariant by assumption. rewrite wadd_ok, wadd_ok, !Mu_ok, (mass_leg 0), (mass_leg (S j)) by lia.
    destruct (mom_ok 0 ltac:(lia)) as (A1 & A2 & A3 & A4 & _). destruct (mom_ok (S j) ltac:(lia)) as (B1 & B2 & B3 & B4 & _).
    assert (D : W (dot2 (PO s) (momK (PO s) (legP s 0)) (momK (PO s) (legP s (S j)))) = RtoC (half P t F 0 (S j))).
    { unfold dot2. destruct PO_hom as (HZ & HA & HMl & HN). rewrite !HA, HN, !HA, !HMl, A1, A2, A3, A4, B1, B2, B3, B4. cbn [o_add o_mul o_neg CO].
      unfold half. rewrite <- !RtoC_mult, <- !RtoC_plus, <- !RtoC_opp, <- !RtoC_plus. f_equal. ring. }
    rewrite !RtoC_plus, !RtoC_mult. f_equal. destruct j as [|j]; [rewrite D; ring|]. rewrite wneg_ok, D. replace (RtoC (-1)) with (- RtoC 1)%C by (rewrite <- RtoC_opp; reflexivity). ring.
  Qed.

  (** ** Inverses *)
  Hypothesis HSL : forall l l' j m, find (fun x => match lcmp (fst x) l with Eq => true | _ => false end) slots = Some (l', (j, (m, None))) ->
    (j < 3)%nat /\ Cmult (rho l) (Cminus (RtoC (invariant P t F j)) (Cmult (W m) (W m))) = RtoC 1.
  Variable d : dens.
  Hypothesis Hd : d = dens_of s \/ d = no_dens.
  Lemma slot_ok l p : slot_den s l = Some p -> (rho l * W p = RtoC 1)%C.
  Proof.
    unfold slot_den. change (u_slots s) with slots. destruct (find _ slots) as [[l' [j [m [x|]]]]|] eqn:E; [discriminate| |discriminate]. intros [= <-].
    destruct (HSL l l' j m E) as [Hj K]. rewrite wsub_ok, (inv_ok j Hj), Mu_ok. exact K.
  Qed.
  Lemma inverse_ok l p : inv s d l = Some p -> (rho l * W p = RtoC 1)%C.
  Proof.
    intros H.
    assert (SL : forall l', (l = l' -> inv s d l' = slot_den s l' \/ inv s d l' = None) -> l = l' -> (rho l * W p = RtoC 1)%C).
    { intros l' A <-. destruct (A eq_refl) as [K|K]; rewrite K in H; [exact (slot_ok _ _ H)|discriminate H]. }
    assert (NR : forall x, x <> 0 -> (RtoC (/ x) * RtoC x = RtoC 1)%C) by (intros x Hx; rewrite <- RtoC_mult; f_equal; apply Rinv_l; exact Hx).
    destruct l; try discriminate H; try (eapply SL; [|reflexivity]; intros _; destruct Hd as [->| ->]; [left; reflexivity|right; reflexivity]).
    - change (inv s d vISW) with (u_i8 (setup0 e)) in H. unfold setup0 in H. cbv zeta in H. cbn [u_i8] in H. case_eq (weakly c); intros Ew; rewrite Ew in H; [|discriminate H]. apply sinj in H; rewrite <- H; clear H.
      change (WN vSW (WL 0) (WL 1)) with (wvar vSW). rhos. apply NR. destruct (HW Ew). lra.
    - change (inv s d vICW) with (u_i10 (setup0 e)) in H. unfold setup0 in H. cbv zeta in H. cbn [u_i10] in H. case_eq (weakly c); intros Ew; rewrite Ew in H; [|discriminate H]. apply sinj in H; rewrite <- H; clear H.
      change (WN vCW (WL 0) (WL 1)) with (wvar vCW). rhos. apply NR. destruct (cw_sq Ew). lra.
    - change (inv s d vIMW) with (u_i11 (setup0 e)) in H. unfold setup0 in H. cbv zeta in H. cbn [u_i11] in H. case_eq (weakly c); intros Ew; rewrite Ew in H; [|discriminate H]. apply sinj in H; rewrite <- H; clear H.
      change (WN vMW (WL 0) (WL 1)) with (wvar vMW). rhos. apply NR. destruct (HW Ew). lra.
    - change (inv s d vIMa) with (u_i12 (setup0 e)) in H. unfold setup0 in H. cbv zeta in H. cbn [u_i12] in H. destruct (find_leg e MtW) as [a|] eqn:Ea; [|discriminate H]. apply sinj in H; rewrite <- H; clear H.
      destruct (W_leg a Ea) as [Ha Ma]. rewrite (n_mass a Ha), Ma. rhos. apply NR.
      case_eq (weakly c); intros Ew; [destruct (HW Ew); lra|]. destruct (fit_weak Ew) as (_ & B & _). congruence.
    - change (inv s d vIMb) with (u_i13 (setup0 e)) in H. unfold setup0 in H. cbv zeta in H. cbn [u_i13] in H. destruct (find_leg e MtZ) as [b|] eqn:Eb; [|discriminate H]. apply sinj in H; rewrite <- H; clear H.
      destruct (Z_leg b Eb) as [Hb Mb]. rewrite (n_mass b Hb), Mb. rhos. apply NR.
      case_eq (weakly c); intros Ew; [|destruct (fit_weak Ew) as (_ & _ & B); congruence]. destruct (HW Ew). destruct (cw_sq Ew). apply Rgt_not_eq. apply Rdiv_lt_0_compat; lra.
    - apply sinj in H; rewrite <- H; clear H. cbn [rho weval]. apply NR. lra.
    - apply sinj in H; rewrite <- H; clear H. cbn [rho weval]. apply NR. lra.
  Qed.
  Lemma Zu_ok p : Zu s d p = true -> W p = RtoC 0.
  Proof. apply wzt_ok; [exact Mu_ok|exact inverse_ok]. Qed.
  Lemma invs_ok x : In x (invs_of s) -> (W (fst x) * W (snd x) = RtoC 1)%C.
  Proof.
    assert (S2 : sqrt 2 * sqrt 2 = 2) by (apply sqrt_sqrt; lra).
    unfold invs_of. cbv zeta. intros H. apply in_app_iff in H as [H|H]; [|apply in_app_iff in H as [H|H]].
    - cbn [In] in H. repeat destruct H as [<-|H]; try contradiction; cbn [fst snd]; rewrite ?Mu_ok; rhos; cbn [weval]; rewrite <- ?RtoC_mult; apply f_equal;
        lazymatch goal with |- context [sqrt 2] => transitivity (/ 2 * (sqrt 2 * sqrt 2)); [ring|rewrite S2; field] | |- _ => field end.
    - change (u_i8 s) with (u_i8 (setup0 e)) in H. unfold setup0 in H at 1. cbv zeta in H. cbn [u_i8] in H. case_eq (weakly c); intros Ew; rewrite Ew in H; [|contradiction].
      pose proof E_ok as K. destruct (HW Ew). destruct (cw_sq Ew). cbn [In] in H. repeat destruct H as [<-|H]; try contradiction; cbn [fst snd]; rewrite ?Mu_ok.
      + rewrite (ch_sw _ _ _ K), (ch_isw _ _ _ K). cbn [constsC c_sw c_isw]. rewrite <- RtoC_mult. f_equal. apply Rinv_r. lra.
      + rewrite (ch_cw _ _ _ K), (ch_icw _ _ _ K). cbn [constsC c_cw c_icw]. rewrite <- RtoC_mult. f_equal. apply Rinv_r. lra.
      + rewrite (ch_mW _ _ _ K), (ch_imW _ _ _ K). cbn [constsC c_mW c_imW]. rewrite <- RtoC_mult. f_equal. apply Rinv_r. lra.
      + rewrite (ch_mW _ _ _ K), (ch_imW _ _ _ K), (ch_cw _ _ _ K), (ch_icw _ _ _ K). cbn [constsC c_mW c_imW c_cw c_icw]. rewrite <- !RtoC_mult. f_equal. field. lra.
    - change (u_vev s) with (has c n_vev) in H. destruct (has c n_vev) eqn:Ev; [|contradiction]. destruct H as [<-|[]]. cbn [fst snd].
      assert (Ew : weakly c = true) by (unfold weakly; rewrite Ev, orb_true_r; reflexivity).
      pose proof E_ok as K. destruct (HW Ew) as [_ HM']. rewrite !Mu_ok, (ch_isw _ _ _ K), (ch_imW _ _ _ K). cbn [constsC c_isw c_imW]. rhos.
      revert HM'. cbn [b_model sm_sw sm_mW sm_e]. rewrite Ev. intros HM'. rewrite <- !RtoC_mult. f_equal. field. split; intros Z0; revert HM'; cbn [sm_of sm_e] in *; rewrite Z0; unfold Rdiv; rewrite ?Rmult_0_l, ?Rmult_0_r, ?Rmult_0_l; lra.
  Qed.
  Lemma roots_ok r : In r (roots_of s) -> exists y : R, 0 <= y /\ W r = RtoC y.
  Proof.
    unfold roots_of. cbv zeta. intros H. cbn [In] in H. repeat destruct H as [<-|H]; try contradiction.
    - exists (sqrt 2). split; [apply sqrt_pos|]. rhos. reflexivity.
    - exists (sm_cw P). split; [apply sqrt_pos|]. exact (ch_cw _ _ _ E_ok).
  Qed.

  (** ** The parameters *)
  Lemma par_value x p : has c x = true -> parP e s x = Some p -> W p = RtoC (par c v x).
  Proof.
    intros Hx H. unfold parP in H. cbv zeta in H. pose proof E_ok as K.
    destruct (existsb (Pos.eqb x) (b_zero e)) eqn:Ez.
    { apply sinj in H; rewrite <- H; clear H. apply existsb_exists in Ez as (y & Hy & Ey). apply Pos.eqb_eq in Ey. subst y. rewrite (Hzero x Hy). reflexivity. }
    destruct (Pos.eqb x n_echarge) eqn:E1; [apply Pos.eqb_eq in E1; subst x; apply sinj in H; rewrite <- H; clear H; change (WN vE (WL 0) (WL 1)) with (wvar vE); rhos; reflexivity|].
    destruct (Pos.eqb x n_gscharge) eqn:E2.
    { apply Pos.eqb_eq in E2. subst x. destruct (has c n_gcharge) eqn:EG; [discriminate H|]. apply sinj in H; rewrite <- H; clear H. change (WN vGS (WL 0) (WL 1)) with (wvar vGS). rhos.
      cbn [b_model sm_gs]. rewrite EG. reflexivity. }
    destruct (Pos.eqb x n_gcharge) eqn:E2'.
    { apply Pos.eqb_eq in E2'. subst x. apply sinj in H; rewrite <- H; clear H. change (WN vGS (WL 0) (WL 1)) with (wvar vGS). rhos. cbn [b_model sm_gs]. rewrite Hx. reflexivity. }
    assert (NV : has c n_vev = true -> x <> n_sinW /\ x <> n_massW) by (intros Ev; destruct (fit_vev Ev); split; intros ->; congruence).
    destruct (Pos.eqb x n_sinW) eqn:E3.
    { apply Pos.eqb_eq in E3. apply sinj in H; rewrite <- H; clear H. rewrite (ch_sw _ _ _ K). cbn [constsC c_sw b_model sm_sw]. destruct (has c n_vev); [destruct (NV eq_refl); contradiction|]. subst x. reflexivity. }
    destruct (Pos.eqb x n_massW) eqn:E4.
    { apply Pos.eqb_eq in E4. apply sinj in H; rewrite <- H; clear H. rewrite (ch_mW _ _ _ K). cbn [constsC c_mW b_model sm_mW]. destruct (has c n_vev); [destruct (NV eq_refl); contradiction|]. subst x. reflexivity. }
    destruct (Pos.eqb x n_massh) eqn:E5; [apply Pos.eqb_eq in E5; subst x; apply sinj in H; rewrite <- H; clear H; exact (ch_mh _ _ _ K)|].
    destruct (Pos.eqb x n_masse) eqn:E6; [apply Pos.eqb_eq in E6; subst x; apply sinj in H; rewrite <- H; clear H; exact (ch_fm _ _ _ K Fe)|].
    destruct (Pos.eqb x n_massu) eqn:E7.
    { apply Pos.eqb_eq in E7. subst x. apply sinj in H; rewrite <- H; clear H. rewrite (ch_fm _ _ _ K Fu). cbn [constsC c_fm]. f_equal. cbn [b_model sm_mass mass_name].
      destruct (has c n_massf) eqn:Ef; [destruct (fit_massf Ef) as (A & _); congruence|]. reflexivity. }
    destruct (Pos.eqb x n_massd) eqn:E8.
    { apply Pos.eqb_eq in E8. subst x. apply sinj in H; rewrite <- H; clear H. rewrite (ch_fm _ _ _ K Fd). cbn [constsC c_fm]. f_equal. cbn [b_model sm_mass mass_name].
      destruct (has c n_massf) eqn:Ef; [destruct (fit_massf Ef) as (_ & A & _); congruence|]. reflexivity. }
    destruct (Pos.eqb x n_massf) eqn:E9.
    { apply Pos.eqb_eq in E9. subst x. apply sinj in H; rewrite <- H; clear H. rewrite (ch_fm _ _ _ K). cbn [constsC c_fm]. f_equal. cbn [b_model sm_mass].
      destruct (fit_massf Hx) as (_ & _ & A). destruct (find_leg e (Mtf Fu)) as [a|] eqn:Ea.
      - cbn [mass_name]. rewrite Hx, Pos.eqb_refl, Ea. reflexivity.
      - cbn [mass_name]. rewrite Hx, Pos.eqb_refl. destruct (find_leg e (Mtf Fd)) as [b|] eqn:Eb; [reflexivity|]. destruct A; congruence. }
    destruct (Pos.eqb x n_widthW || Pos.eqb x n_widthZ || Pos.eqb x n_widthh) eqn:F0;
      [|destruct (Pos.eqb x n_vev) eqn:E10; [|discriminate H]; apply Pos.eqb_eq in E10; subst x; apply sinj in H; rewrite <- H; clear H; change (WN vV (WL 0) (WL 1)) with (wvar vV); rhos; reflexivity].
    destruct (b_narrow e) eqn:EN; [|discriminate H].
    destruct (Hwidth eq_refl) as (A & B & D). apply sinj in H. rewrite <- H. apply orb_prop in F0 as [F0|F0]; [apply orb_prop in F0 as [F0|F0]|]; apply Pos.eqb_eq in F0; subst x; rewrite ?A, ?B, ?D; reflexivity.
  Qed.
  Lemma param_ok k p : match nth_error (c_params c) k with Some x => parP e s x | None => None end = Some p -> W p = RtoC (v k).
  Proof.
    destruct (nth_error (c_params c) k) as [x|] eqn:E; [|discriminate]. intros H. pose proof (fit_index k x E) as I.
    rewrite (par_value x p) by (unfold has; rewrite ?I; auto). unfold par. rewrite I. reflexivity.
  Qed.
End Setup.
