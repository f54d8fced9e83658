(** * C60 after set_masses *)
From Coq Require Import Reals QArith Qreals List Bool String Lra Lia.
From Coquelicot Require Import Complex.
From Verif Require Import Base Scalar RealNum Linear Integers Particle
  Lang LangFrame Pure ReadOnly Sym SymEq SMNames SMRun SMAll SMChecks SMState PropsClasses PropsConstruct
  SpinColour SMAmp2 SMRebuild PropsRebuild PropsAmp2 PropsAmplitudes
  Feynman FeynmanTable BosonSpec BosonHom Tower BosonCode BosonKin BosonFrame BosonSetup BosonMatch BosonCM BosonTable PropsBosons FeynmanPoint PropsHelicities SM06.
Import ListNotations.
Close Scope Q_scope.
Open Scope nat_scope.
Open Scope R_scope.

(** amp takes spins; in hhhh, where no leg has spin, it has no arguments *)
Definition amp_spins (c : cls) : bool :=
  match find_meth c n_amp with
  | Some f => match m_params f with [] => forallb (fun z => match z with [] => true | _ => false end) (configs c []) | l => forallb (fun p => match snd p with PkI => true | _ => false end) l end
  | None => false
  end.
Lemma bosons_amp : forallb (fun e => amp_spins (b_cls e)) boson_entries = true.
Proof. vm_cast_no_check (eq_refl true). Qed.
Lemma amp_takes e : In e boson_entries -> takes_spins (b_cls e) n_amp \/ argless (b_cls e) n_amp /\ forall z, In z (configs (b_cls e) []) -> z = [].
Proof.
  intros He. pose proof (proj1 (forallb_forall _ _) bosons_amp e He) as K. cbv beta in K. unfold amp_spins in K.
  destruct (find_meth (b_cls e) n_amp) as [f|] eqn:EF; [|discriminate K].
  destruct (m_params f) as [|p l] eqn:EP.
  - right. split; [exists f; split; assumption|]. intros z Hz. pose proof (proj1 (forallb_forall _ _) K z Hz) as X. cbv beta in X. destruct z; [reflexivity|discriminate X].
  - left. exists f. split; [exact EF|]. rewrite EP. split; [discriminate|].
    intros x Hx. pose proof (proj1 (forallb_forall _ _) K x Hx) as X. cbv beta in X. destruct (snd x); [reflexivity|discriminate X|discriminate X].
Qed.
Lemma args_configs e hs : In e boson_entries -> In hs (all_helicities (ts e)) -> In (args_of e hs) (configs (b_cls e) []).
Proof.
  intros He Hhs. pose proof (proj1 (forallb_forall _ _) labels_checked e He) as K. pose proof (proj1 (forallb_forall _ _) K hs Hhs) as X. cbv beta zeta in X.
  destruct (zs_eqb (spins_of e (args_of e hs)) hs); [|discriminate X].
  apply existsb_exists in X as (z & Hz & EZ). apply zs_eqb_eq in EZ. rewrite EZ. exact Hz.
Qed.

(** C60 after set_masses: the helicity amplitude with the masses given last.  The classes that
    set_masses leaves with stale data (C44) are left out. *)
Theorem C60_helicity_amplitudes_set_masses :
  forall e, In e boson_entries -> let c := b_cls e in let t := ts e in mirrored c = false -> named stale c = false ->
  forall hs, In hs (all_helicities t) ->
  let hel k := nth k hs 0%Z in
  exists s : bool,
  forall st eps, 0 <= eps ->
  forall (junk : id -> nat -> T (RN st eps)) (params masses : list R) (o o1 o2 : obj (RN st eps)) r h0,
    construct (num:=RN st eps) junk c params = (Ok tt, o) -> forallb not_set_v h0 = true ->
    callm (num:=RN st eps) junk c n_set_masses (map (GT (num:=RN st eps)) masses) (snd (orun (num:=RN st eps) junk c h0 o)) = (Ok r, o1) ->
    construct (num:=RN st eps) junk c (rebuilt c params masses) = (Ok tt, o2) ->
  let v := fun j => nth j (rebuilt c params masses) 0 in let P := b_model e v in
    (weakly c = true -> 0 < sm_sw P < 1 /\ 0 < sm_mW P) ->
    (forall x, In x (b_zero e) -> par c v x = 0) ->
    (b_narrow e = true -> par c v n_widthW = 0 /\ par c v n_widthZ = 0 /\ par c v n_widthh = 0) ->
  forall F, kinematics P t F ->
  forall h, forallb no_setter h = true ->
    let q k := cm_q P t F k in
    let g := callm (num:=RN st eps) junk c n_set_momenta [GMom (num:=RN st eps) (q 0%nat); GMom (num:=RN st eps) (q 1%nat); GMom (num:=RN st eps) (q 2%nat); GMom (num:=RN st eps) (q 3%nat)]
               (snd (orun (num:=RN st eps) junk c h o1)) in
    let M := feynman_tree P t F hel in
  forall rs, forallb reading rs = true ->
    fst g = Ok None /\
    fst (callm (num:=RN st eps) junk c n_amp (map GI (spin_args c t hel)) (snd (orun (num:=RN st eps) junk c rs (snd g)))) =
      Ok (Some (RtC (num:=RN st eps) (if s then Copp M else M))).
Proof.
  intros e He c t Hm Hs hs Hhs hel. destruct (C60_helicity_amplitudes e He Hm hs Hhs) as (s & X). exists s.
  intros st eps Heps junk params masses o o1 o2 r h0 EC Hh0 E1 E2 v P HW Hz Hn F HK h Hh q g M rs Hrs.
  destruct (X st eps Heps junk (rebuilt c params masses) o2 E2 HW Hz Hn F HK [] eq_refl [] eq_refl) as (F1 & F2).
  pose proof (boson_sm e He) as Hc.
  destruct (C44_rebuilding_reals_partial c Hc Hs st eps junk params masses o o1 o2 r h0 h [] EC Hh0 E1 E2 Hh eq_refl (q 0%nat) (q 1%nat) (q 2%nat) (q 3%nat)) as [K1 K2].
  assert (G1 : fst g = Ok None) by (etransitivity; [exact K1|exact F1]). split; [exact G1|].
  assert (HA : In (spin_args c t hel) (configs c [])).
  { pose proof (args_configs e hs He Hhs) as Y. unfold args_of in Y. change (mirrored (b_cls e)) with (mirrored c) in Y. rewrite Hm in Y. exact Y. }
  etransitivity; [|exact F2]. destruct (amp_takes e He) as [HT|[HT H0]].
  2: { change (spin_args (b_cls e) (ts e) (fun k : nat => nth k hs 0%Z)) with (spin_args c t hel). rewrite (H0 _ HA). exact (K2 (f_equal isOk G1) rs [] Hrs eq_refl n_amp HT). }
  exact (C44_amplitudes_partial c Hc Hs st eps junk params masses o o1 o2 r h0 h [] EC Hh0 E1 E2 Hh eq_refl (q 0%nat) (q 1%nat) (q 2%nat) (q 3%nat)
    (f_equal isOk G1) rs [] Hrs eq_refl n_amp _ HT HA).
Qed.
Print Assumptions C60_helicity_amplitudes_set_masses.

(** e- e+ -> W+ W-, built with masses 7, 3 and 8, then set_masses(5, 2, 5): the value of C60_example *)
Example C60_set_masses_example :
  exists (o o1 : obj (RN false 0)) r, construct (num:=RN false 0) (fun _ _ => 0) eeWW [1; 7; 3; 1; 8; 3 / 5; 1] = (Ok tt, o) /\
    callm (num:=RN false 0) (fun _ _ => 0) eeWW n_set_masses (map (GT (num:=RN false 0)) [5; 2; 5]) o = (Ok r, o1) /\
    let g := callm (num:=RN false 0) (fun _ _ => 0) eeWW n_set_momenta
      [GMom (num:=RN false 0) (V4 13 0 0 12); GMom (num:=RN false 0) (V4 13 0 0 (-12)); GMom (num:=RN false 0) (V4 13 (288 / 25) 0 (84 / 25)); GMom (num:=RN false 0) (V4 13 (- (288 / 25)) 0 (- (84 / 25)))] o1 in
    exists s : bool,
    fst (callm (num:=RN false 0) (fun _ _ => 0) eeWW n_amp [GI (-1); GI 1; GI 0; GI 0]%Z (snd g)) =
      Ok (Some (RtC (num:=RN false 0) (if s then Copp (111189223475 / 86416912192, - (116717568 / 2596662025)) else (111189223475 / 86416912192, - (116717568 / 2596662025))))).
Proof.
  assert (He : In ee_WW boson_entries) by (unfold boson_entries; do 2 (apply in_or_app; right); apply in_or_app; left; unfold boson_entries3; do 2 apply in_cons; apply in_eq).
  pose proof (boson_sm ee_WW He) as Hc. change (b_cls ee_WW) with eeWW in Hc.
  destruct (C42_members_partial eeWW Hc (RN false 0) eq_refl (fun _ _ => 0) (fun _ _ => 0) [1; 7; 3; 1; 8; 3 / 5; 1] eq_refl) as (o & _ & EC & _).
  destruct (C42_members_partial eeWW Hc (RN false 0) eq_refl (fun _ _ => 0) (fun _ _ => 0) [1; 5; 2; 1; 5; 3 / 5; 1] eq_refl) as (o2 & _ & EC2 & _).
  destruct (find_meth eeWW n_set_masses) as [f|] eqn:EF; [|discriminate EF].
  assert (LF : List.length (m_params f) = 3%nat) by (symmetry; exact (f_equal (fun x => match x with Some f => List.length (m_params f) | None => 0%nat end) EF)).
  pose proof (C42_set_masses_returns eeWW f Hc EF (RN false 0) eq_refl (fun _ _ => 0) _ o [] EC eq_refl [5; 2; 5] (eq_sym LF)) as K0.
  change (isOk (fst (callm (num:=RN false 0) (fun _ _ => 0) eeWW n_set_masses (map (GT (num:=RN false 0)) [5; 2; 5]) o)) = true) in K0.
  destruct (callm (num:=RN false 0) (fun _ _ => 0) eeWW n_set_masses (map (GT (num:=RN false 0)) [5; 2; 5]) o) as [[r0| |] o1] eqn:E1; try discriminate K0.
  exists o, o1, r0. split; [exact EC|]. split; [exact E1|]. cbv zeta.
  set (t := fun k => nth k [Pf Fe; Pa Fe; PWp; PWm] PA). set (r := point_eeWW).
  assert (H1 : point_fits r t = true) by (vm_cast_no_check (eq_refl true)). assert (H2 : poles_off r t = true) by (vm_cast_no_check (eq_refl true)).
  assert (H3 : kin_fits r t = true) by (vm_cast_no_check (eq_refl true)).
  assert (HP : b_model ee_WW (fun j => nth j [1; 5; 2; 1; 5; 3 / 5; 1] 0) = model_of r).
  { unfold b_model, model_of, r, point_eeWW. apply sm_eq; try (cbn [r_e r_gs r_sw r_mW r_mh r_wZ r_wW r_wh]; match goal with |- _ = Q2R ?q => transitivity (Q2R q); [|reflexivity] end; q2r).
    intros []; q2r. }
  assert (Hh : In [-1; -1; 0; 0]%Z (all_helicities (ts ee_WW))) by (cbn; tauto).
  destruct (C60_helicity_amplitudes_set_masses ee_WW He eq_refl eq_refl [-1; -1; 0; 0]%Z Hh) as (s & K).
  pose proof (K false 0 (Rle_refl 0) (fun _ _ => 0) _ [5; 2; 5] o o1 o2 r0 [] EC eq_refl E1 EC2) as K1. cbv zeta in K1.
  change (rebuilt (b_cls ee_WW) [1; 7; 3; 1; 8; 3 / 5; 1] [5; 2; 5]) with [1; 5; 2; 1; 5; 3 / 5; 1] in K1. rewrite HP in K1.
  assert (KI : kinematics (model_of r) t (frame_of r)) by (apply point_kinematics; assumption).
  assert (W1 : weakly (b_cls ee_WW) = true -> 0 < sm_sw (model_of r) < 1 /\ 0 < sm_mW (model_of r)) by (intros _; split; [split|]; q2r).
  pose proof (K1 W1 (fun x (Hx : In x []) => match Hx with end) (fun E : false = true => False_ind _ (Bool.diff_false_true E)) (frame_of r) KI [] eq_refl [] eq_refl) as [_ K2]. clear K1 K.
  assert (Q0 : cm_q (model_of r) t (frame_of r) 0 = V4 13 0 0 12) by vec H1.
  assert (Q1 : cm_q (model_of r) t (frame_of r) 1 = V4 13 0 0 (-12)) by vec H1.
  assert (Q2 : cm_q (model_of r) t (frame_of r) 2 = V4 13 (288 / 25) 0 (84 / 25)) by vec H1.
  assert (Q3 : cm_q (model_of r) t (frame_of r) 3 = V4 13 (- (288 / 25)) 0 (- (84 / 25))) by vec H1.
  rewrite <- Q0, <- Q1, <- Q2, <- Q3. exists s. etransitivity; [exact K2|].
  assert (M : feynman_tree (model_of r) (ts ee_WW) (frame_of r) (fun k => nth k [-1; -1; 0; 0]%Z 0%Z) = (111189223475 / 86416912192, - (116717568 / 2596662025))).
  { rewrite (tree_of_point r (ts ee_WW) H1 H2).
    replace (treeQ r (ts ee_WW) (fun k => nth k [-1; -1; 0; 0]%Z 0%Z)) with (((111189223475 # 86416912192, 0), (- 116717568 # 2596662025, 0))%Q : q4) by (vm_cast_no_check (eq_refl (treeQ r (ts ee_WW) (fun k => nth k [-1; -1; 0; 0]%Z 0%Z)))).
    unfold q4C, q2R. f_equal; q2r. }
  rewrite M. reflexivity.
Qed.
