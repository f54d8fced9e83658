(** * Processes with outer bosons: every amplitude is that of the Feynman rules *)
From Coq Require Import Reals QArith Qreals List Bool String Lra Lia FunctionalExtensionality.
From Coquelicot Require Import Complex.
From Verif Require Import Base Scalar RealNum Linear Integers Particle Sproduct Propagator Process
  ParticleProofs SpecSpinor ParticleReal SpinorReal Ready ParticleClaims SpecSproduct SpecChain ChainReal Lorentz
  WorldProofs Lang LangFrame Pure PureProofs ReadOnly Sym SymEq SMNames SMRun SMTwins SMMasses SMAll SMChecks SMState PropsClasses PropsConstruct
  SMAmp2 SpinColour SMInv SMRebuild PropsRebuild PropsAmp2 PropsGluons Poly Covariant CovReal PropsLorentz PropsQED PropsWidth
  Feynman FeynmanAlg FeynmanSum FeynmanLegs FeynmanFlat FeynmanTable FeynmanMatch FeynmanMirror PropsFeynman
  BosonSpec BosonHom Tower BosonCode BosonCodeOk BosonKin BosonFrame BosonSetup BosonMatch BosonCM BosonTable PropsBosons FeynmanPoint.
Import ListNotations.
Close Scope Q_scope.
Open Scope nat_scope.
Open Scope R_scope.

(** ** The arguments of amp
    amp takes twice the spin of every leg but neutrinos and Higgs bosons, for all particles coming
    in: the helicity of the particles that do come in, minus the helicity of those that go out.
    (SM/nWWn.cpp 97: there in the opposite order.)  [h] is that of BosonSpec.feynman_tree: twice the
    helicity, for antifermions minus that. *)
Definition twice_helicity (t : ptype) (h : Z) : Z := match t with Pa _ => (- h)%Z | _ => h end.
Definition spin_arg (k : nat) (t : ptype) (h : Z) : list Z :=
  let z := if (k <? 2)%nat then twice_helicity t h else (- twice_helicity t h)%Z in
  match t with Ph => [] | Pf f | Pa f => if is_neutrino f then [] else [z] | _ => [z] end.
Definition spin_args (c : cls) (t : nat -> ptype) (h : nat -> Z) : list Z :=
  let l := (spin_arg 0 (t 0%nat) (h 0%nat) ++ spin_arg 1 (t 1%nat) (h 1%nat) ++ spin_arg 2 (t 2%nat) (h 2%nat) ++ spin_arg 3 (t 3%nat) (h 3%nat))%list in
  if String.eqb (c_name c) "nWWn" then rev l else l.
Definition all_helicities (t : nat -> ptype) : list (list Z) := cart (map (fun k => helicities (t k)) (seq 0 4)).

Definition mirrored (c : cls) : bool := String.eqb (c_name c) "WdWd".
Definition args_of (e : bentry) (hs : list Z) : list Z :=
  let l := spin_args (b_cls e) (ts e) (fun k => nth k hs 0%Z) in if mirrored (b_cls e) then map Z.opp l else l.
Definition labels_ok (e : bentry) : bool :=
  forallb (fun hs => let z := args_of e hs in if zs_eqb (spins_of e z) hs then existsb (zs_eqb z) (configs (b_cls e) []) else false) (all_helicities (ts e)).
Lemma labels_checked : forallb labels_ok boson_entries = true.
Proof. vm_cast_no_check (eq_refl true). Qed.

Lemma amp_of_args e : In e boson_entries -> forall hs, In hs (all_helicities (ts e)) ->
  exists s : bool,
  forall st eps, 0 <= eps ->
  forall (junk : id -> nat -> T (RN st eps)) (params : list R) (o : obj (RN st eps)),
    construct (num:=RN st eps) junk (b_cls e) params = (Ok tt, o) ->
  let v := fun j => nth j params 0 in let P := b_model e v in
    (weakly (b_cls e) = true -> 0 < sm_sw P < 1 /\ 0 < sm_mW P) ->
    (forall x, In x (b_zero e) -> par (b_cls e) v x = 0) ->
    (b_narrow e = true -> par (b_cls e) v n_widthW = 0 /\ par (b_cls e) v n_widthZ = 0 /\ par (b_cls e) v n_widthh = 0) ->
  forall F, kinematics P (ts e) F ->
  forall h, forallb no_setter h = true ->
    let q k := cm_q P (ts e) F k in
    let g := callm (num:=RN st eps) junk (b_cls e) n_set_momenta [GMom (num:=RN st eps) (q 0%nat); GMom (num:=RN st eps) (q 1%nat); GMom (num:=RN st eps) (q 2%nat); GMom (num:=RN st eps) (q 3%nat)]
               (snd (orun (num:=RN st eps) junk (b_cls e) h o)) in
    let M := feynman_tree P (ts e) F (fun k => nth k hs 0%Z) in
  forall rs, forallb reading rs = true ->
    fst g = Ok None /\
    fst (callm (num:=RN st eps) junk (b_cls e) n_amp (map GI (args_of e hs)) (snd (orun (num:=RN st eps) junk (b_cls e) rs (snd g)))) =
      Ok (Some (RtC (num:=RN st eps) (if s then Copp M else M))).
Proof.
  intros He hs Hhs. pose proof (proj1 (forallb_forall _ _) labels_checked e He) as K. pose proof (proj1 (forallb_forall _ _) K hs Hhs) as X. cbv beta zeta in X.
  destruct (zs_eqb (spins_of e (args_of e hs)) hs) eqn:ES; [|discriminate X]. apply zs_eqb_eq in ES.
  apply existsb_exists in X as (z & Hz & EZ). apply zs_eqb_eq in EZ. rewrite <- EZ in Hz. apply In_nth_error in Hz as (n & Hn).
  exists (sign_at e n). intros st eps Heps junk params o EC v P HW Hz Hw F (Hh & Hin & Hout & Hc' & Hs & Hu & HE & HP) h Hno q g M rs Hrs.
  pose proof (boson_sm e He) as Hc. pose proof (proj1 (forallb_forall _ _) bosons_agree e He) as AG. pose proof (proj1 (forallb_forall _ _) bosons_checked e He) as BC'. apply andb_prop in BC' as [BC SC].
  pose proof (fresh_amp st eps Heps e Hc BC junk params o EC Hh HW Hz Hw F Hin Hout Hc' Hs Hu HE HP AG h rs n (args_of e hs) Hno Hrs Hn) as X. cbv zeta in X.
  rewrite ES in X. exact X.
Qed.

(** C60.  For every class of [boson_entries] but WdWd and all helicities: there is a sign such that
    for all parameters of the constructor, every momentum and angle in the centre-of-mass frame,
    whatever happened since the construction and whatever is read in between, amp of these
    helicities is that sign times the amplitude of the Feynman rules. *)
Theorem C60_helicity_amplitudes :
  forall e, In e boson_entries -> let c := b_cls e in let t := ts e in mirrored c = false ->
  forall hs, In hs (all_helicities t) ->
  let hel k := nth k hs 0%Z in
  exists s : bool,
  forall st eps, 0 <= eps ->
  forall (junk : id -> nat -> T (RN st eps)) (params : list R) (o : obj (RN st eps)),
    construct (num:=RN st eps) junk c params = (Ok tt, o) ->
  let v := fun j => nth j params 0 in let P := b_model e v in
    (weakly c = true -> 0 < sm_sw P < 1 /\ 0 < sm_mW P) ->
    (forall x, In x (b_zero e) -> par c v x = 0) ->
    (b_narrow e = true -> par c v n_widthW = 0 /\ par c v n_widthZ = 0 /\ par c v n_widthh = 0) ->
  forall F, kinematics P t F ->
  forall h, forallb no_setter h = true ->
    let q k := cm_q P t F k in
    let g := callm (num:=RN st eps) junk c n_set_momenta [GMom (num:=RN st eps) (q 0%nat); GMom (num:=RN st eps) (q 1%nat); GMom (num:=RN st eps) (q 2%nat); GMom (num:=RN st eps) (q 3%nat)]
               (snd (orun (num:=RN st eps) junk c h o)) in
    let M := feynman_tree P t F hel in
  forall rs, forallb reading rs = true ->
    fst g = Ok None /\
    fst (callm (num:=RN st eps) junk c n_amp (map GI (spin_args c t hel)) (snd (orun (num:=RN st eps) junk c rs (snd g)))) =
      Ok (Some (RtC (num:=RN st eps) (if s then Copp M else M))).
Proof.
  intros e He c t Hm hs Hhs hel. pose proof (amp_of_args e He hs Hhs) as X. unfold args_of in X. fold c t in X. cbv zeta in X. rewrite Hm in X. exact X.
Qed.
Print Assumptions C60_helicity_amplitudes.

(** In WdWd (W+ d -> W+ d) amp of some spins is the amplitude of the opposite helicities. *)
Theorem C60_WdWd_opposite :
  forall e, In e boson_entries -> let c := b_cls e in let t := ts e in mirrored c = true ->
  forall hs, In hs (all_helicities t) ->
  let hel k := nth k hs 0%Z in
  exists s : bool,
  forall st eps, 0 <= eps ->
  forall (junk : id -> nat -> T (RN st eps)) (params : list R) (o : obj (RN st eps)),
    construct (num:=RN st eps) junk c params = (Ok tt, o) ->
  let v := fun j => nth j params 0 in let P := b_model e v in
    0 < sm_sw P < 1 -> 0 < sm_mW P ->
  forall F, kinematics P t F ->
  forall h, forallb no_setter h = true ->
    let q k := cm_q P t F k in
    let g := callm (num:=RN st eps) junk c n_set_momenta [GMom (num:=RN st eps) (q 0%nat); GMom (num:=RN st eps) (q 1%nat); GMom (num:=RN st eps) (q 2%nat); GMom (num:=RN st eps) (q 3%nat)]
               (snd (orun (num:=RN st eps) junk c h o)) in
    let M := feynman_tree P t F hel in
  forall rs, forallb reading rs = true ->
    fst g = Ok None /\
    fst (callm (num:=RN st eps) junk c n_amp (map GI (map Z.opp (spin_args c t hel))) (snd (orun (num:=RN st eps) junk c rs (snd g)))) =
      Ok (Some (RtC (num:=RN st eps) (if s then Copp M else M))).
Proof.
  intros e He c t Hm hs Hhs hel. pose proof (amp_of_args e He hs Hhs) as X. unfold args_of in X. fold c t in X. cbv zeta in X. rewrite Hm in X.
  destruct X as (s & X). exists s. intros st eps Heps junk params o EC v P HW1 HW2 F K h Hh q g M rs Hrs.
  assert (B : forallb (fun e => if mirrored (b_cls e) then if b_narrow e then false else match b_zero e with [] => true | _ => false end else true) boson_entries = true)
    by (vm_cast_no_check (eq_refl true)).
  pose proof (proj1 (forallb_forall _ _) B e He) as Y. cbv beta in Y. fold c in Y. rewrite Hm in Y.
  destruct (b_narrow e) eqn:EN; [discriminate Y|]. destruct (b_zero e) as [|x l] eqn:EZ; [|discriminate Y].
  apply (X st eps Heps junk params o EC); auto; [intros x []|discriminate].
Qed.
Print Assumptions C60_WdWd_opposite.

(** ** A point of each *)
Lemma sm_eq a1 a2 a3 a4 a5 a6 a7 a8 f b1 b2 b3 b4 b5 b6 b7 b8 g : a1 = b1 -> a2 = b2 -> a3 = b3 -> a4 = b4 -> a5 = b5 -> a6 = b6 -> a7 = b7 -> a8 = b8 ->
  (forall x, f x = g x) -> mkSM a1 a2 a3 a4 a5 a6 a7 a8 f = mkSM b1 b2 b3 b4 b5 b6 b7 b8 g.
Proof. intros -> -> -> -> -> -> -> -> H. f_equal. apply functional_extensionality, H. Qed.
Lemma frame_eq a b c d a' b' c' d' : a = a' -> b = b' -> c = c' -> d = d' -> mkFrame a b c d = mkFrame a' b' c' d'.
Proof. intros -> -> -> ->. reflexivity. Qed.
Lemma point_kinematics r t : point_fits r t = true -> poles_off r t = true -> kin_fits r t = true -> kinematics (model_of r) t (frame_of r).
Proof. intros H1 H2 H3. destruct (kin_of_point r t H1 H2 H3) as (A & (B1 & B2 & B3 & B4 & B5 & B6) & D). repeat (split; [assumption|]). exact D. Qed.
Lemma q_of_point r t k : point_fits r t = true -> (k < 4)%nat -> cm_q (model_of r) t (frame_of r) k = V4 (Q2R (momQ r k 0)) (Q2R (momQ r k 1)) (Q2R (momQ r k 2)) (Q2R (momQ r k 3)).
Proof. intros H Hk. unfold cm_q. rewrite !(mom_of_point r t H k) by exact Hk. reflexivity. Qed.
Ltac q2r := unfold Q2R; cbn; lra.
Ltac vec H := rewrite (q_of_point _ _ _ H) by lia; apply (f_equal4 (V4 (A:=R))); q2r.

(** e- e+ -> W+ W- at the point of C57_example, both W bosons longitudinal *)
Definition point_eeWW : rpoint := RPoint 1 0 (3 # 5) (4 # 5) 5 2 1 0 1 (fun f => match f with Fe => 5%Q | _ => 0%Q end) (fun _ => 5%Q) (fun _ => 1%Q) (4 # 5) (3 # 5).
Example C60_example :
  exists o : obj (RN false 0), construct (num:=RN false 0) (fun _ _ => 0) eeWW [1; 5; 2; 1; 5; 3 / 5; 1] = (Ok tt, o) /\
    let g := callm (num:=RN false 0) (fun _ _ => 0) eeWW n_set_momenta
      [GMom (num:=RN false 0) (V4 13 0 0 12); GMom (num:=RN false 0) (V4 13 0 0 (-12)); GMom (num:=RN false 0) (V4 13 (288 / 25) 0 (84 / 25)); GMom (num:=RN false 0) (V4 13 (- (288 / 25)) 0 (- (84 / 25)))] o in
    exists s : bool,
    fst (callm (num:=RN false 0) (fun _ _ => 0) eeWW n_amp [GI (-1); GI 1; GI 0; GI 0]%Z (snd g)) =
      Ok (Some (RtC (num:=RN false 0) (if s then Copp (111189223475 / 86416912192, - (116717568 / 2596662025)) else (111189223475 / 86416912192, - (116717568 / 2596662025))))).
Proof.
  destruct (built true eeWW) as [|x|b] eqn:EB; [pose proof eeWW_built as X; rewrite EB in X; discriminate X|pose proof eeWW_built as X; rewrite EB in X; discriminate X|].
  destruct (new_real 0 (fun _ _ => 0) eeWW [1; 5; 2; 1; 5; 3 / 5; 1] b EB eq_refl) as (o & _ & EC & _). exists o. split; [exact EC|]. cbv zeta.
  set (t := fun k => nth k [Pf Fe; Pa Fe; PWp; PWm] PA). set (r := point_eeWW).
  assert (H1 : point_fits r t = true) by (vm_cast_no_check (eq_refl true)). assert (H2 : poles_off r t = true) by (vm_cast_no_check (eq_refl true)).
  assert (H3 : kin_fits r t = true) by (vm_cast_no_check (eq_refl true)).
  assert (He : In ee_WW boson_entries) by (unfold boson_entries; do 2 (apply in_or_app; right); apply in_or_app; left; unfold boson_entries3; do 2 apply in_cons; apply in_eq).
  assert (HP : b_model ee_WW (fun j => nth j [1; 5; 2; 1; 5; 3 / 5; 1] 0) = model_of r).
  { unfold b_model, model_of, r, point_eeWW. apply sm_eq; try (cbn [r_e r_gs r_sw r_mW r_mh r_wZ r_wW r_wh]; match goal with |- _ = Q2R ?q => transitivity (Q2R q); [|reflexivity] end; q2r).
    intros []; q2r. }
  assert (Hh : In [-1; -1; 0; 0]%Z (all_helicities (ts ee_WW))) by (cbn; tauto).
  destruct (C60_helicity_amplitudes ee_WW He eq_refl [-1; -1; 0; 0]%Z Hh) as (s & K).
  pose proof (K false 0 (Rle_refl 0) (fun _ _ => 0) [1; 5; 2; 1; 5; 3 / 5; 1] o EC) as K1. cbv zeta in K1. rewrite HP in K1.
  assert (KI : kinematics (model_of r) t (frame_of r)) by (apply point_kinematics; assumption).
  assert (W1 : weakly (b_cls ee_WW) = true -> 0 < sm_sw (model_of r) < 1 /\ 0 < sm_mW (model_of r)) by (intros _; split; [split|]; q2r).
  pose proof (K1 W1 (fun x (Hx : In x []) => match Hx with end) (fun E : false = true => False_ind _ (Bool.diff_false_true E)) (frame_of r) KI [] eq_refl [] eq_refl) as [_ K2]. clear K1 K.
  assert (Q0 : cm_q (model_of r) t (frame_of r) 0 = V4 13 0 0 12) by vec H1.
  assert (Q1 : cm_q (model_of r) t (frame_of r) 1 = V4 13 0 0 (-12)) by vec H1.
  assert (Q2 : cm_q (model_of r) t (frame_of r) 2 = V4 13 (288 / 25) 0 (84 / 25)) by vec H1.
  assert (Q3 : cm_q (model_of r) t (frame_of r) 3 = V4 13 (- (288 / 25)) 0 (- (84 / 25))) by vec H1.
  rewrite <- Q0, <- Q1, <- Q2, <- Q3. exists s. etransitivity; [exact K2|]. 
  assert (M : feynman_tree (model_of r) (ts ee_WW) (frame_of r) (fun k => nth k [-1; -1; 0; 0]%Z 0%Z) = (111189223475 / 86416912192, - (116717568 / 2596662025))).
  { rewrite (tree_of_point r (ts ee_WW) H1 H2).
    replace (treeQ r (ts ee_WW) (fun k => nth k [-1; -1; 0; 0]%Z 0%Z)) with (((111189223475 # 86416912192, 0), (- 116717568 # 2596662025, 0))%Q : q4) by (vm_cast_no_check (eq_refl (treeQ r (ts ee_WW) (fun k => nth k [-1; -1; 0; 0]%Z 0%Z)))).
    unfold q4C, q2R. f_equal; q2r. }
  rewrite M. reflexivity.
Qed.

(** W+ d -> W+ d.  At this point amp of the spins (-2, -1, 2, -1), that is, of the helicities
    (-, -1/2) before and (-, +1/2) after, is 3203605415/1776582756 or minus that, about 1.80; the
    Feynman rules give -994031245/592194252, about -1.68.  No choice of phases of the states makes
    these equal. *)
Definition point_WdWd : rpoint :=
  RPoint 1 0 (3 # 5) (4 # 5) (63 # 4) 2 0 0 0 (fun f => match f with Fd => 3%Q | Fu => 2%Q | _ => 0%Q end)
    (fun k => match k with 0%nat | 2%nat => (9 # 2)%Q | _ => 3%Q end) (fun k => match k with 0%nat | 2%nat => (7 # 2)%Q | _ => 1%Q end) (4 # 5) (3 # 5).
Definition Wd_Wd : bentry := BEntry WdWd [PWp; Pf Fd; PWp; Pf Fd] Kb [] false [true; true; false; false] "-++--+-++--+-++--+-++--+-++--+-++--+" false.
Lemma WdWd_built : match built true WdWd with POk _ => true | _ => false end = true.
Proof. vm_cast_no_check (eq_refl true). Qed.
Theorem C60_WdWd_refuted :
  exists o : obj (RN false 0), construct (num:=RN false 0) (fun _ _ => 0) WdWd [1; 3; 2; 2; 0; 63 / 4; 3 / 5; 0] = (Ok tt, o) /\
    let P := mkSM 1 0 (3 / 5) (63 / 4) 2 0 0 0 (fun f => match f with Fd => 3 | Fu => 2 | _ => 0 end) in
    let t k := nth k [PWp; Pf Fd; PWp; Pf Fd] PA in let F := mkFrame 4 4 (4 / 5) (3 / 5) in
    let hel k := nth k [-2; -1; -2; 1]%Z 0%Z in
    spin_args WdWd t hel = [-2; -1; 2; -1]%Z /\ kinematics P t F /\
    let g := callm (num:=RN false 0) (fun _ _ => 0) WdWd n_set_momenta
      [GMom (num:=RN false 0) (V4 (65 / 4) 0 0 4); GMom (num:=RN false 0) (V4 5 0 0 (-4)); GMom (num:=RN false 0) (V4 (65 / 4) (96 / 25) 0 (28 / 25)); GMom (num:=RN false 0) (V4 5 (- (96 / 25)) 0 (- (28 / 25)))] o in
    fst g = Ok None /\
    exists z : C, fst (callm (num:=RN false 0) (fun _ _ => 0) WdWd n_amp [GI (-2); GI (-1); GI 2; GI (-1)]%Z (snd g)) = Ok (Some (RtC (num:=RN false 0) z)) /\
      Cmod z = 3203605415 / 1776582756 /\ Cmod (feynman_tree P t F hel) = 994031245 / 592194252 /\ Cmod z <> Cmod (feynman_tree P t F hel).
Proof.
  destruct (built true WdWd) as [|x|b] eqn:EB; [pose proof WdWd_built as X; rewrite EB in X; discriminate X|pose proof WdWd_built as X; rewrite EB in X; discriminate X|].
  destruct (new_real 0 (fun _ _ => 0) WdWd [1; 3; 2; 2; 0; 63 / 4; 3 / 5; 0] b EB eq_refl) as (o & _ & EC & _). exists o. split; [exact EC|]. cbv zeta.
  set (t := fun k => nth k [PWp; Pf Fd; PWp; Pf Fd] PA). set (r := point_WdWd).
  assert (H1 : point_fits r t = true) by (vm_cast_no_check (eq_refl true)). assert (H2 : poles_off r t = true) by (vm_cast_no_check (eq_refl true)).
  assert (H3 : kin_fits r t = true) by (vm_cast_no_check (eq_refl true)).
  assert (He : In Wd_Wd boson_entries) by (unfold boson_entries; do 2 (apply in_or_app; right); apply in_or_app; left; unfold boson_entries3; do 1 apply in_cons; apply in_eq).
  assert (EP : mkSM 1 0 (3 / 5) (63 / 4) 2 0 0 0 (fun f => match f with Fd => 3 | Fu => 2 | _ => 0 end) = model_of r).
  { unfold model_of, r, point_WdWd. apply sm_eq; [q2r..|]. intros []; q2r. }
  assert (EF : mkFrame 4 4 (4 / 5) (3 / 5) = frame_of r) by (unfold frame_of; apply frame_eq; q2r).
  rewrite EP, EF.
  assert (HP : b_model Wd_Wd (fun j => nth j [1; 3; 2; 2; 0; 63 / 4; 3 / 5; 0] 0) = model_of r).
  { rewrite <- EP. unfold b_model. apply sm_eq; try (cbn; lra). intros []; cbn; lra. }
  assert (Hh : In [2; 1; 2; -1]%Z (all_helicities (ts Wd_Wd))) by (cbn; tauto).
  destruct (C60_WdWd_opposite Wd_Wd He eq_refl [2; 1; 2; -1]%Z Hh) as (s & K).
  pose proof (K false 0 (Rle_refl 0) (fun _ _ => 0) [1; 3; 2; 2; 0; 63 / 4; 3 / 5; 0] o EC) as K1. cbv zeta in K1. rewrite HP in K1.
  assert (KI : kinematics (model_of r) t (frame_of r)) by (apply point_kinematics; assumption).
  assert (W1 : 0 < sm_sw (model_of r) < 1) by (split; q2r). assert (W2 : 0 < sm_mW (model_of r)) by q2r.
  pose proof (K1 W1 W2 (frame_of r) KI [] eq_refl [] eq_refl) as [K3 K2]. clear K1 K.
  assert (Q0 : cm_q (model_of r) t (frame_of r) 0 = V4 (65 / 4) 0 0 4) by vec H1.
  assert (Q1 : cm_q (model_of r) t (frame_of r) 1 = V4 5 0 0 (-4)) by vec H1.
  assert (Q2 : cm_q (model_of r) t (frame_of r) 2 = V4 (65 / 4) (96 / 25) 0 (28 / 25)) by vec H1.
  assert (Q3 : cm_q (model_of r) t (frame_of r) 3 = V4 5 (- (96 / 25)) 0 (- (28 / 25))) by vec H1.
  rewrite <- Q0, <- Q1, <- Q2, <- Q3. split; [reflexivity|]. split; [exact KI|]. split; [exact K3|].
  assert (M : forall hs a, treeQ r t (fun k => nth k hs 0%Z) = rat a -> feynman_tree (model_of r) t (frame_of r) (fun k => nth k hs 0%Z) = RtoC (Q2R a)).
  { intros hs a E. rewrite (tree_of_point r t H1 H2), E. apply rat_ok. }
  assert (M1 : feynman_tree (model_of r) t (frame_of r) (fun k => nth k [2; 1; 2; -1]%Z 0%Z) = RtoC (Q2R (3203605415 # 1776582756)))
    by (apply M; vm_cast_no_check (eq_refl (rat (3203605415 # 1776582756)))).
  assert (M2 : feynman_tree (model_of r) t (frame_of r) (fun k => nth k [-2; -1; -2; 1]%Z 0%Z) = RtoC (Q2R (-994031245 # 592194252)))
    by (apply M; vm_cast_no_check (eq_refl (rat (-994031245 # 592194252)))).
  assert (A1 : Cmod (RtoC (Q2R (3203605415 # 1776582756))) = 3203605415 / 1776582756) by (rewrite Cmod_R, Rabs_pos_eq by q2r; q2r).
  assert (A2 : Cmod (RtoC (Q2R (-994031245 # 592194252))) = 994031245 / 592194252) by (rewrite Cmod_R, Rabs_left by q2r; q2r).
  exists (if s then Copp (RtoC (Q2R (3203605415 # 1776582756))) else RtoC (Q2R (3203605415 # 1776582756))).
  assert (A3 : Cmod (if s then Copp (RtoC (Q2R (3203605415 # 1776582756))) else RtoC (Q2R (3203605415 # 1776582756))) = 3203605415 / 1776582756) by (destruct s; rewrite ?Cmod_opp; exact A1).
  split; [|split; [exact A3|split; [rewrite M2; exact A2|rewrite A3, M2, A2; lra]]].
  etransitivity; [exact K2|]. change (ts Wd_Wd) with t. rewrite M1. reflexivity.
Qed.
Print Assumptions C60_WdWd_refuted.

(** ** e- e+ -> photon Z
    amp and amp2 of eeAZ are always 0 (C48_eeAZ; the sum over the spins of SM/eeAZ.cpp is over an
    amplitude that is still in comments).  So C57 is false of it: the Feynman rules give about 3.79 at
    this point. *)
Definition point_eeAZ : rpoint :=
  RPoint 1 0 (3 # 5) (4 # 5) 12 0 0 0 0 (fun f => match f with Fe => 12%Q | _ => 0%Q end)
    (fun k => match k with 3%nat => 5%Q | _ => 4%Q end) (fun k => match k with 2%nat => 0%Q | _ => 3%Q end) (4 # 5) (3 # 5).
Definition ee_AZ : bentry := BEntry eeAZ [Pf Fe; Pa Fe; PA; PZ] Ke [] false [] "" false.
Lemma eeAZ_built : match built true eeAZ with POk _ => true | _ => false end = true.
Proof. vm_cast_no_check (eq_refl true). Qed.
Theorem C57_eeAZ_refuted :
  exists o : obj (RN false 0), construct (num:=RN false 0) (fun _ _ => 0) eeAZ [1; 12; 12; 3 / 5] = (Ok tt, o) /\
    let P := mkSM 1 0 (3 / 5) 12 0 0 0 0 (fun f => match f with Fe => 12 | _ => 0 end) in
    let t k := nth k [Pf Fe; Pa Fe; PA; PZ] PA in let F := mkFrame (7 / 2) 8 (4 / 5) (3 / 5) in
    b_model ee_AZ (fun j => nth j [1; 12; 12; 3 / 5] 0) = P /\ kinematics P t F /\
    (forall k, (k < 4)%nat -> cm_q P t F k = nth k [V4 (25 / 2) 0 0 (7 / 2); V4 (25 / 2) 0 0 (- (7 / 2)); V4 8 (192 / 25) 0 (56 / 25); V4 17 (- (192 / 25)) 0 (- (56 / 25))] (V4 0 0 0 0)) /\
    let g := callm (num:=RN false 0) (fun _ _ => 0) eeAZ n_set_momenta
      [GMom (num:=RN false 0) (V4 (25 / 2) 0 0 (7 / 2)); GMom (num:=RN false 0) (V4 (25 / 2) 0 0 (- (7 / 2))); GMom (num:=RN false 0) (V4 8 (192 / 25) 0 (56 / 25)); GMom (num:=RN false 0) (V4 17 (- (192 / 25)) 0 (- (56 / 25)))] o in
    fst g = Ok None /\
    fst (callm (num:=RN false 0) (fun _ _ => 0) eeAZ n_amp2 [] (snd g)) = Ok (Some (RtT (num:=RN false 0) 0)) /\
    feynman_tree2 P t F = 18298252140053 / 4822971973632.
Proof.
  destruct (built true eeAZ) as [|x|b] eqn:EB; [pose proof eeAZ_built as X; rewrite EB in X; discriminate X|pose proof eeAZ_built as X; rewrite EB in X; discriminate X|].
  destruct (new_real 0 (fun _ _ => 0) eeAZ [1; 12; 12; 3 / 5] b EB eq_refl) as (o & HR & EC & _). exists o. split; [exact EC|]. cbv zeta.
  set (t := fun k => nth k [Pf Fe; Pa Fe; PA; PZ] PA). set (r := point_eeAZ).
  assert (H1 : point_fits r t = true) by (vm_cast_no_check (eq_refl true)). assert (H2 : poles_off r t = true) by (vm_cast_no_check (eq_refl true)).
  assert (H3 : kin_fits r t = true) by (vm_cast_no_check (eq_refl true)).
  assert (EP : mkSM 1 0 (3 / 5) 12 0 0 0 0 (fun f => match f with Fe => 12 | _ => 0 end) = model_of r).
  { unfold model_of, r, point_eeAZ. apply sm_eq; [q2r..|]. intros []; q2r. }
  assert (EF : mkFrame (7 / 2) 8 (4 / 5) (3 / 5) = frame_of r) by (unfold frame_of; apply frame_eq; q2r).
  assert (HP : b_model ee_AZ (fun j => nth j [1; 12; 12; 3 / 5] 0) = model_of r).
  { rewrite <- EP. unfold b_model. apply sm_eq; try (cbn; lra). intros []; cbn; lra. }
  rewrite EP, EF.
  assert (KI : kinematics (model_of r) t (frame_of r)) by (apply point_kinematics; assumption).
  split; [exact HP|]. split; [exact KI|].
  assert (Q0 : cm_q (model_of r) t (frame_of r) 0 = V4 (25 / 2) 0 0 (7 / 2)) by vec H1.
  assert (Q1 : cm_q (model_of r) t (frame_of r) 1 = V4 (25 / 2) 0 0 (- (7 / 2))) by vec H1.
  assert (Q2 : cm_q (model_of r) t (frame_of r) 2 = V4 8 (192 / 25) 0 (56 / 25)) by vec H1.
  assert (Q3 : cm_q (model_of r) t (frame_of r) 3 = V4 17 (- (192 / 25)) 0 (- (56 / 25))) by vec H1.
  split; [intros [|[|[|[|k]]]] Hk; try assumption; lia|].
  assert (W1 : weakly (b_cls ee_AZ) = true -> 0 < sm_sw (model_of r) < 1 /\ 0 < sm_mW (model_of r)) by (intros _; split; [split|]; q2r).
  assert (Hc : In eeAZ sm_classes) by (unfold sm_classes; rewrite !in_app_iff; cbn; tauto).
  assert (BC : base_check ee_AZ = true) by (vm_cast_no_check (eq_refl true)).
  destruct KI as (Hh & Hin & Hout & Hc' & Hs & Hu & HE & _).
  assert (LM : forall k, (k < 4)%nat -> leg_mass (num:=RN false 0) o k (pmass (model_of r) (t k))).
  { intros k Hk. pose proof (leg_held_b false 0 ee_AZ Hc BC (fun _ _ => 0) [1; 12; 12; 3 / 5] o EC) as X. unfold given in X. rewrite HP in X.
    apply (X Hh W1 (fun x (Hx : In x []) => match Hx with end) (fun E : false = true => False_ind _ (Bool.diff_false_true E)) (frame_of r) Hin Hout Hu HE k Hk). }
  assert (M0 : pmass (model_of r) (t 0%nat) = 12) by q2r. assert (M1 : pmass (model_of r) (t 1%nat) = 12) by q2r.
  assert (M2 : pmass (model_of r) (t 2%nat) = 0) by reflexivity.
  assert (M3 : pmass (model_of r) (t 3%nat) = 15).
  { rewrite (mass_of_point r t H1). q2r. }
  destruct (C45_no_exception_on_shell eeAZ Hc false 0 (Rle_refl 0) (fun _ _ => 0) o HR 12 12 0 15
    (eq_ind _ (leg_mass o 0) (LM 0%nat ltac:(lia)) _ M0) (eq_ind _ (leg_mass o 1) (LM 1%nat ltac:(lia)) _ M1) (eq_ind _ (leg_mass o 2) (LM 2%nat ltac:(lia)) _ M2) (eq_ind _ (leg_mass o 3) (LM 3%nat ltac:(lia)) _ M3))
    with (q1 := V4 (25 / 2) 0 0 (7 / 2)) (q2 := V4 (25 / 2) 0 0 (- (7 / 2))) (q3 := V4 8 (192 / 25) 0 (56 / 25)) (q4 := V4 17 (- (192 / 25)) 0 (- (56 / 25))) as (G & N).
  - intros p m [E|[E|[E|[E|[]]]]]; apply pinj in E as [<- <-]; intros L; [discriminate L|discriminate L|reflexivity|discriminate L].
  - intros p m [E|[E|[E|[E|[]]]]]; apply pinj in E as [<- <-]; intros L; [lra|lra|discriminate L|lra].
  - unfold on_shell, minksq; cbn; lra.
  - unfold on_shell, minksq; cbn; lra.
  - unfold on_shell, minksq; cbn; lra.
  - unfold on_shell, minksq; cbn; lra.
  - split; [exact G|].
    assert (HA : argless eeAZ n_amp2) by (exists (match find_meth eeAZ n_amp2 with Some f => f | None => mkMeth xH [] SSkip end); split; reflexivity).
    destruct (N [] eq_refl n_amp2 HA) as (x & X). 
    destruct (C48_eeAZ false 0 (fun _ _ => 0) o HR _ _ _ _ (f_equal isOk G) [] eq_refl) as (_ & Z). pose proof (Z _ X) as X0. 
    split; [etransitivity; [exact X|rewrite X0; reflexivity]|].
    rewrite (tree2_of_point r t H1 H2).
    replace (tree2Q r t) with ((18298252140053 # 1205742993408, 0)%Q : q2) by (vm_cast_no_check (eq_refl (tree2Q r t))).
    unfold q2R. cbn [fst snd]. change (colour_sum t) with 1. replace (INR (initial_states t)) with 4 by (cbn; lra). q2r.
Qed.
Print Assumptions C57_eeAZ_refuted.
