(** * Two gluons and two quarks after set_masses (C58, C59) *)
From Coq Require Import Reals List Bool String Lra Lia.
From Coquelicot Require Import Complex.
From Verif Require Import Base Scalar RealNum Linear Particle ParticleReal ParticleClaims SpinorReal SpecSproduct SpecChain ChainReal Lorentz Covariant
  Lang LangFrame ReadOnly SMNames SMRun SMAll SM04 SM07 SM08 SMChecks SMState PropsClasses PropsConstruct
  SMRebuild PropsRebuild PropsAmp2 PropsGluons Gluons BosonKin BosonFrame BosonCM PropsTextbook.
Import ListNotations.
Open Scope nat_scope.
Open Scope R_scope.

Definition with_quarks (x : qcd) : bool := existsb (fun b => b) (q_quark x).
(** The classes with quarks are among those set_masses leaves as a constructor would. *)
Lemma quark_classes x : In x qcd_table -> with_quarks x = true ->
  In (q_cls x) sm_classes /\ named stale (q_cls x) = false /\
  List.length (c_params (q_cls x)) = 2%nat /\ argless (q_cls x) n_amp2 /\ (forall gs m0 m : R, rebuilt (q_cls x) [gs; m0] [m] = [gs; m]).
Proof.
  intros Hx HQ. destruct Hx as [<-|[<-|[<-|[<-|[<-|[]]]]]]; try discriminate HQ; cbn [q_cls];
    (split; [unfold sm_classes; rewrite !in_app_iff; cbn; tauto|]); repeat (split; [reflexivity|]);
    (split; [eexists; split; reflexivity|intros; reflexivity]).
Qed.

(** The object built with the new mass from the start.  Unless uninitialised members may be read
    ([st = false]) this needs that the constructor does not read one. *)
Lemma built_with st eps x (junk : id -> nat -> T (RN st eps)) (gs m : R) : In x qcd_table -> with_quarks x = true ->
  (st = true -> fst (construct (num:=RN st eps) junk (q_cls x) [gs; m]) = Ok tt) ->
  exists o2, construct (num:=RN st eps) junk (q_cls x) [gs; m] = (Ok tt, o2).
Proof.
  intros Hx HQ HI. destruct (quark_classes x Hx HQ) as (A & B & L & _). destruct st.
  - specialize (HI eq_refl). destruct (construct (num:=RN true eps) junk (q_cls x) [gs; m]) as [r o2]. cbn in HI. subst r. eexists. reflexivity.
  - destruct (C42_members_partial (q_cls x) A (RN false eps) eq_refl junk junk [gs; m] (eq_sym L)) as (o2 & _ & E & _). exists o2. exact E.
Qed.

(** C58 after set_masses: the formula with the mass given last. *)
Theorem C58_textbook_set_masses :
  forall x, In x qcd_table -> with_quarks x = true ->
  forall st eps, 0 <= eps ->
  forall (junk : id -> nat -> T (RN st eps)) (gs m0 m : R) (o o1 : obj (RN st eps)) r h0, 0 < m ->
    (st = true -> fst (construct (num:=RN st eps) junk (q_cls x) [gs; m]) = Ok tt) ->
    construct (num:=RN st eps) junk (q_cls x) [gs; m0] = (Ok tt, o) -> forallb not_set_v h0 = true ->
    callm (num:=RN st eps) junk (q_cls x) n_set_masses [GT (num:=RN st eps) m] (snd (orun (num:=RN st eps) junk (q_cls x) h0 o)) = (Ok r, o1) ->
  forall q1 q2 q3 q4 : vec4 R,
    (forall k, (k < 4)%nat -> on_shell (if nth k (q_quark x) false then m else 0) (nth k [q1; q2; q3; q4] q4) /\ 0 <= v_0 (nth k [q1; q2; q3; q4] q4)) ->
    vadd q1 q2 = vadd q3 q4 -> 0 < minksq (vadd q1 q2) -> gram3 q1 q2 q3 <> 0 ->
  forall h rs, forallb no_setter h = true -> forallb reading rs = true ->
    let s := callm (num:=RN st eps) junk (q_cls x) n_set_momenta
      [GMom (num:=RN st eps) q1; GMom (num:=RN st eps) q2; GMom (num:=RN st eps) q3; GMom (num:=RN st eps) q4] (snd (orun (num:=RN st eps) junk (q_cls x) h o1)) in
    fst s = Ok None /\
    fst (callm (num:=RN st eps) junk (q_cls x) n_amp2 [] (snd (orun (num:=RN st eps) junk (q_cls x) rs (snd s)))) =
      Ok (Some (RtT (num:=RN st eps) (gs ^ 4 * q_formula x m (minksq (vadd q1 q2)) (minksq (vsub q1 q3)) (minksq (vsub q1 q4))))).
Proof.
  intros x Hx HQ st eps Heps junk gs m0 m o o1 r h0 Hm HI EC Hh0 E1 q1 q2 q3 q4 HS HC H0 HG h rs Hno Hrs s.
  destruct (quark_classes x Hx HQ) as (A & B & L & N & RB). destruct (built_with st eps x junk gs m Hx HQ HI) as (o2 & E2).
  pose proof (RB gs m0 m) as RB'. rewrite <- RB' in E2.
  destruct (C44_rebuilding_reals_partial (q_cls x) A B st eps junk [gs; m0] [m] o o1 o2 r h0 h [] EC Hh0 E1 E2 Hno eq_refl q1 q2 q3 q4) as [K1 K2].
  rewrite RB' in E2.
  destruct (C58_textbook_gluons x Hx st eps Heps junk gs m o2 Hm ltac:(unfold with_quarks in HQ; rewrite HQ; exact E2) q1 q2 q3 q4 HS HC H0 HG [] [] eq_refl eq_refl) as [F1 F2].
  assert (G1 : fst s = Ok None) by (etransitivity; [exact K1|exact F1]). split; [exact G1|].
  etransitivity; [exact (K2 ltac:(change (isOk (fst s) = true); rewrite G1; reflexivity) rs [] Hrs eq_refl n_amp2 N)|exact F2].
Qed.
Print Assumptions C58_textbook_set_masses.

(** C59 after set_masses. *)
Theorem C59_amp2_Feynman_set_masses :
  forall x, In x qcd_table -> with_quarks x = true -> argless (q_cls x) n_amp2_Feynman ->
  forall st eps, 0 <= eps ->
  forall (junk : id -> nat -> T (RN st eps)) (gs m0 m : R) (o o1 : obj (RN st eps)) r h0, 0 < m ->
    (st = true -> fst (construct (num:=RN st eps) junk (q_cls x) [gs; m]) = Ok tt) ->
    construct (num:=RN st eps) junk (q_cls x) [gs; m0] = (Ok tt, o) -> forallb not_set_v h0 = true ->
    callm (num:=RN st eps) junk (q_cls x) n_set_masses [GT (num:=RN st eps) m] (snd (orun (num:=RN st eps) junk (q_cls x) h0 o)) = (Ok r, o1) ->
  forall q1 q2 q3 q4 : vec4 R,
    (forall k, (k < 4)%nat -> on_shell (if nth k (q_quark x) false then m else 0) (nth k [q1; q2; q3; q4] q4) /\ 0 <= v_0 (nth k [q1; q2; q3; q4] q4)) ->
    vadd q1 q2 = vadd q3 q4 -> 0 < minksq (vadd q1 q2) -> gram3 q1 q2 q3 <> 0 ->
  forall h rs rs', forallb no_setter h = true -> forallb reading rs = true -> forallb reading rs' = true ->
    let s := callm (num:=RN st eps) junk (q_cls x) n_set_momenta
      [GMom (num:=RN st eps) q1; GMom (num:=RN st eps) q2; GMom (num:=RN st eps) q3; GMom (num:=RN st eps) q4] (snd (orun (num:=RN st eps) junk (q_cls x) h o1)) in
    exists y z : R,
      fst (callm (num:=RN st eps) junk (q_cls x) n_amp2_Feynman [] (snd (orun (num:=RN st eps) junk (q_cls x) rs (snd s)))) = Ok (Some (RtT (num:=RN st eps) y)) /\
      fst (callm (num:=RN st eps) junk (q_cls x) n_amp2 [] (snd (orun (num:=RN st eps) junk (q_cls x) rs' (snd s)))) = Ok (Some (RtT (num:=RN st eps) z)) /\
      y = gs ^ 4 * gg_QQ 0 (minksq (vadd q1 q2)) (minksq (vsub q1 q3) - m ^ 2) (minksq (vsub q1 q4) - m ^ 2) /\ (gs <> 0 -> y < z).
Proof.
  intros x Hx HQ HF st eps Heps junk gs m0 m o o1 r h0 Hm HI EC Hh0 E1 q1 q2 q3 q4 HS HC H0 HG h rs rs' Hno Hrs Hrs' s.
  destruct (quark_classes x Hx HQ) as (A & B & L & N & RB). destruct (built_with st eps x junk gs m Hx HQ HI) as (o2 & E2).
  pose proof (RB gs m0 m) as RB'. rewrite <- RB' in E2.
  destruct (C44_rebuilding_reals_partial (q_cls x) A B st eps junk [gs; m0] [m] o o1 o2 r h0 h [] EC Hh0 E1 E2 Hno eq_refl q1 q2 q3 q4) as [K1 K2].
  rewrite RB' in E2.
  assert (E3 : construct (num:=RN st eps) junk (q_cls x) (if existsb (fun b => b) (q_quark x) then [gs; m] else [gs]) = (Ok tt, o2)) by (unfold with_quarks in HQ; rewrite HQ; exact E2).
  destruct (C58_textbook_gluons x Hx st eps Heps junk gs m o2 Hm E3 q1 q2 q3 q4 HS HC H0 HG [] [] eq_refl eq_refl) as [F1 _].
  destruct (C59_amp2_Feynman x Hx HF st eps Heps junk gs m o2 Hm E3 q1 q2 q3 q4 HS HC H0 HG [] [] [] eq_refl eq_refl eq_refl) as (y & z & Y & Z & W).
  assert (G1 : fst s = Ok None) by (etransitivity; [exact K1|exact F1]).
  assert (G2 : isOk (fst s) = true) by (rewrite G1; reflexivity).
  exists y, z. split; [|split].
  - etransitivity; [exact (K2 G2 rs [] Hrs eq_refl n_amp2_Feynman HF)|exact Y].
  - etransitivity; [exact (K2 G2 rs' [] Hrs' eq_refl n_amp2 N)|exact Z].
  - unfold with_quarks in HQ. rewrite HQ in W. exact W.
Qed.
Print Assumptions C59_amp2_Feynman_set_masses.

(** Two gluons into two d quarks, built with md = 1, then set_masses(5): the values of C58_example *)
Example C58_set_masses_example :
  let q1 := V4 13 0 0 13 in let q2 := V4 13 0 0 (-13) in let q3 := V4 13 12 0 0 in let q4 := V4 13 (-12) 0 0 in
  exists (o o1 : obj (RN false 0)) r, construct (num:=RN false 0) (fun _ _ => 0) ggdd [2; 1] = (Ok tt, o) /\
    callm (num:=RN false 0) (fun _ _ => 0) ggdd n_set_masses [GT (num:=RN false 0) 5] o = (Ok r, o1) /\
    let s := callm (num:=RN false 0) (fun _ _ => 0) ggdd n_set_momenta [GMom (num:=RN false 0) q1; GMom (num:=RN false 0) q2; GMom (num:=RN false 0) q3; GMom (num:=RN false 0) q4] o1 in
    fst s = Ok None /\
    fst (callm (num:=RN false 0) (fun _ _ => 0) ggdd n_amp2 [] (snd s)) = Ok (Some (RtT (num:=RN false 0) (250327 / 85683))).
Proof.
  assert (V : vadd (V4 13 0 0 13) (V4 13 0 0 (-13)) = vadd (V4 13 12 0 0) (V4 13 (-12) 0 0)) by (unfold vadd; cbn; f_equal; lra).
  assert (VS : minksq (vadd (V4 13 0 0 13) (V4 13 0 0 (-13))) = 676) by (unfold minksq, vadd; cbn; lra).
  assert (VT : minksq (vsub (V4 13 0 0 13) (V4 13 12 0 0)) = -313) by (unfold minksq, vsub; cbn; lra).
  assert (VU : minksq (vsub (V4 13 0 0 13) (V4 13 (-12) 0 0)) = -313) by (unfold minksq, vsub; cbn; lra).
  assert (VG : gram3 (V4 13 0 0 13) (V4 13 0 0 (-13)) (V4 13 12 0 0) = 16451136) by (unfold gram3, minkdot; cbn; lra).
  destruct (built_with false 0 _ (fun _ _ => 0) 2 1 (or_introl eq_refl) eq_refl ltac:(discriminate)) as (o & EC). cbn [q_cls] in EC. cbv zeta.
  destruct (quark_classes _ (or_introl eq_refl) eq_refl) as (A & _).
  destruct (find_meth ggdd n_set_masses) as [f|] eqn:EF; [|discriminate EF].
  assert (LF : List.length (m_params f) = 1%nat) by (symmetry; exact (f_equal (fun x => match x with Some f => List.length (m_params f) | None => 0%nat end) EF)).
  pose proof (C42_set_masses_returns ggdd f A EF (RN false 0) eq_refl (fun _ _ => 0) [2; 1] o [] EC eq_refl [5] (eq_sym LF)) as K.
  change (isOk (fst (callm (num:=RN false 0) (fun _ _ => 0) ggdd n_set_masses [GT (num:=RN false 0) 5] o)) = true) in K.
  destruct (callm (num:=RN false 0) (fun _ _ => 0) ggdd n_set_masses [GT (num:=RN false 0) 5] o) as [[r| |] o1] eqn:E1; try discriminate K.
  exists o, o1, r. split; [exact EC|]. split; [exact E1|].
  destruct (C58_textbook_set_masses _ (or_introl eq_refl) eq_refl false 0 (Rle_refl 0) (fun _ _ => 0) 2 1 5 o o1 r [] ltac:(lra) ltac:(discriminate) EC eq_refl E1 (V4 13 0 0 13) (V4 13 0 0 (-13)) (V4 13 12 0 0) (V4 13 (-12) 0 0)) with (h := @nil (ocall (RN false 0))) (rs := @nil (ocall (RN false 0))) as (F1 & F2).
  { intros [|[|[|[|k]]]] Hk; [..|lia]; unfold on_shell, minksq; cbn; lra. }
  { exact V. } { rewrite VS. lra. } { rewrite VG. lra. } { reflexivity. } { reflexivity. }
  split; [exact F1|]. etransitivity; [exact F2|]. rewrite VS, VT, VU. cbn [q_formula]. unfold gg_QQ. do 3 f_equal. change (T (RN false 0)) with R. field.
Qed.
