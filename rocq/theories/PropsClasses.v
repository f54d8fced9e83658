(** * Theorems on all process classes: C43, C45 *)
From Coq Require Import Reals QArith String Ascii Lra Lia.
From Verif Require Import Base Scalar RealNum ParticleReal Linear Integers Particle Sproduct Propagator Process
  ParticleProofs Ready ParticleClaims SpecSproduct WorldProofs Lang LangFrame Pure PureProofs ReadOnly Sym SMNames
  SMRun SMTwins SMMasses SMAll SMChecks IEEE SMFloat SM06.
Close Scope Q_scope.
Close Scope R_scope.
Open Scope st_scope.

(** std::polar(std::sqrt(x),phi) is defined: in every arithmetic in the lenient reading of
    undefined behaviour, and in exact arithmetic in the strict one. *)
Lemma polar_lenient (num : Num) : strict num = false -> polar_total (num:=num).
Proof. intros H x phi. unfold polar. rewrite H. reflexivity. Qed.
Lemma polar_real st eps : polar_total (num:=RN st eps).
Proof.
  intros x phi. unfold polar. cbn. destruct st; [|reflexivity].
  assert (K : Rgeb (sqrt x) 0 = true) by (apply Rgeb_true; apply Rle_ge, sqrt_pos). rewrite K. reflexivity.
Qed.

Definition no_setter {num} (k : ocall num) : bool := match k with OCall m _ => negb (is_setter m) end.
Definition not_set_v {num} (k : ocall num) : bool := match k with OCall m _ => negb (Pos.eqb m n_set_v) end.
Definition reading {num} (k : ocall num) : bool := match k with OCall m _ => reader m end.

Lemma like_history {num : Num} (junk : id -> nat -> T num) c h o : In c sm_classes -> forallb no_setter h = true ->
  like (dyn_mask c) o (snd (orun junk c h o)).
Proof.
  intros Hc Hh. apply history_quiet. rewrite forallb_forall in *. intros [m args] Hk. specialize (Hh _ Hk).
  cbn in Hh |- *. apply dyn_ok; [exact Hc|]. apply negb_true_iff, Hh.
Qed.
Lemma like_history_m {num : Num} (junk : id -> nat -> T num) c h o : In c sm_classes -> forallb not_set_v h = true ->
  like (mass_mask c) o (snd (orun junk c h o)).
Proof.
  intros Hc Hh. apply history_quiet. rewrite forallb_forall in *. intros [m args] Hk. specialize (Hh _ Hk).
  cbn in Hh |- *. apply mass_ok; [exact Hc|]. apply negb_true_iff, Hh.
Qed.
Lemma reading_reads {num : Num} c rs : In c sm_classes -> forallb (reading (num:=num)) rs = true ->
  forallb (fun k => match k with OCall m _ => method_reads c m end) rs = true.
Proof.
  intros Hc H. rewrite forallb_forall in *. intros [m args] Hk. apply reads_ok; [exact Hc|exact (H _ Hk)].
Qed.

(** C43.  Two histories of a process object that leave the masses alone; then the same
    momenta.  set_momenta ends alike (returns, or throws the same), and if it returns, then
    amp2 and each polarised variant return the same value (or throw the same) from then
    on. *)
Theorem C43_last_momenta :
  forall c, In c sm_classes ->
  forall (num : Num), polar_total (num:=num) ->
  forall (junk : id -> nat -> T num) (params : list (T num)) (o : obj num),
    construct junk c params = (Ok tt, o) ->
  forall h1 h2 : list (ocall num), forallb no_setter h1 = true -> forallb no_setter h2 = true ->
  forall q1 q2 q3 q4 : mom num,
    let given o := callm junk c n_set_momenta [GMom q1; GMom q2; GMom q3; GMom q4] o in
    let g1 := given (snd (orun junk c h1 o)) in
    let g2 := given (snd (orun junk c h2 o)) in
    fst g1 = fst g2 /\
    (isOk (fst g1) = true ->
     forall rs1 rs2, forallb reading rs1 = true -> forallb reading rs2 = true ->
     forall m, argless c m ->
       fst (callm junk c m [] (snd (orun junk c rs1 (snd g1)))) =
       fst (callm junk c m [] (snd (orun junk c rs2 (snd g2))))).
Proof.
  intros c Hc num HP junk params o EC h1 h2 H1 H2 q1 q2 q3 q4. cbn zeta.
  destruct (shape_c c Hc) as (b & EB & HM & HA).
  assert (HS : shaped b o) by (eapply construct_shaped; eauto).
  assert (HT : twin (dyn_mask c) b (snd (orun junk c h1 o)) (snd (orun junk c h2 o))).
  { apply (twin_like _ _ o o); [reflexivity| |apply like_history; assumption|apply like_history; assumption].
    apply twin_self; [exact HS|]. intros x Hx. eapply construct_known; eauto. }
  destruct (twins c (dyn_mask c) b (argless_list c) HP (takes_c c Hc) HA junk junk _ _ [q1; q2; q3; q4] HT eq_refl) as [K1 K2].
  split; [exact K1|]. intros HOk rs1 rs2 R1 R2 m Hm.
  apply K2; [exact HOk|apply reading_reads; assumption|apply reading_reads; assumption|apply argless_in, Hm].
Qed.
Print Assumptions C43_last_momenta.

(** The same with changes of the masses: only the last set_masses and the last set_momenta
    count.  (set_v, in two classes, replaces the vacuum expectation value and is not among
    the calls.) *)
Theorem C43_last_masses_and_momenta :
  forall c, In c sm_classes ->
  forall (num : Num), polar_total (num:=num) ->
  forall (junk : id -> nat -> T num) (params : list (T num)) (o : obj num),
    construct junk c params = (Ok tt, o) ->
  forall h1 h2 : list (ocall num), forallb not_set_v h1 = true -> forallb not_set_v h2 = true ->
  forall (masses : list (T num)) r1 r2 o1 o2,
    callm junk c n_set_masses (map GT masses) (snd (orun junk c h1 o)) = (Ok r1, o1) ->
    callm junk c n_set_masses (map GT masses) (snd (orun junk c h2 o)) = (Ok r2, o2) ->
  forall h1' h2' : list (ocall num), forallb no_setter h1' = true -> forallb no_setter h2' = true ->
  forall q1 q2 q3 q4 : mom num,
    let given o := callm junk c n_set_momenta [GMom q1; GMom q2; GMom q3; GMom q4] o in
    let g1 := given (snd (orun junk c h1' o1)) in
    let g2 := given (snd (orun junk c h2' o2)) in
    fst g1 = fst g2 /\
    (isOk (fst g1) = true ->
     forall rs1 rs2, forallb reading rs1 = true -> forallb reading rs2 = true ->
     forall m, argless c m ->
       fst (callm junk c m [] (snd (orun junk c rs1 (snd g1)))) =
       fst (callm junk c m [] (snd (orun junk c rs2 (snd g2))))).
Proof.
  intros c Hc num HP junk params o EC h1 h2 H1 H2 masses r1 r2 o1 o2 E1 E2 h1' h2' H1' H2' q1 q2 q3 q4. cbn zeta.
  destruct (shape_c c Hc) as (b & EB & HM & HA).
  assert (HS : shaped b o) by (eapply construct_shaped; eauto).
  assert (HF : exists f, find_meth c n_set_masses = Some f).
  { destruct (find_meth c n_set_masses) as [f|] eqn:EF; [eauto|]. exfalso.
    unfold callm in E1. change (run junk c 2 n_set_masses) with (fun args =>
      match find_meth c n_set_masses with Some f => invoke junk (run junk c 1) f args | None => slift (UB TypeMismatch) end) in E1.
    cbn beta in E1. rewrite EF in E1. discriminate E1. }
  destruct HF as (f & EF). destruct (setm_c c Hc b f EF EB) as (HSig & b2 & EB2 & HCl).
  assert (HT : twin (dyn_mask c) b o1 o2).
  { eapply (masses_twins c b junk junk o (snd (orun junk c h1 o)) (snd (orun junk c h2 o)) masses r1 r2 o1 o2 b2); eauto.
    - apply mass_ok; [exact Hc|reflexivity].
    - intros x Hx. eapply construct_known; eauto.
    - apply like_history_m; assumption.
    - apply like_history_m; assumption. }
  assert (HT' : twin (dyn_mask c) b (snd (orun junk c h1' o1)) (snd (orun junk c h2' o2))).
  { apply (twin_like _ _ o1 o2); [reflexivity|exact HT|apply like_history; assumption|apply like_history; assumption]. }
  destruct (twins c (dyn_mask c) b (argless_list c) HP (takes_c c Hc) HA junk junk _ _ [q1; q2; q3; q4] HT' eq_refl) as [K1 K2].
  split; [exact K1|]. intros HOk rs1 rs2 R1 R2 m Hm.
  apply K2; [exact HOk|apply reading_reads; assumption|apply reading_reads; assumption|apply argless_in, Hm].
Qed.
Print Assumptions C43_last_masses_and_momenta.

(** ** C45 *)
(** Objects that calls have produced: construction, then any calls; a set_masses call
    counts if it returned.  (set_v left out as above.) *)
Inductive reached {num : Num} (junk : id -> nat -> T num) (c : cls) : obj num -> Prop :=
| reached_new params o : construct junk c params = (Ok tt, o) -> reached junk c o
| reached_call o m args r o' : reached junk c o -> Pos.eqb m n_set_v = false ->
    callm junk c m args o = (r, o') -> (Pos.eqb m n_set_masses = true -> isOk r = true) -> reached junk c o'.

Lemma known_weaken c b x : known (mass_mask c) b x = true -> known (dyn_mask c) b x = true.
Proof.
  intros H. apply andb_prop in H as [H1 H2]. unfold known. rewrite H2, andb_true_r. apply negb_true_iff in H1. cbn in H1.
  apply negb_true_iff. apply orb_false_iff in H1. apply H1.
Qed.
Lemma set_masses_args {num : Num} (junk : id -> nat -> T num) c args o r o' : sm_sig c = true ->
  callm junk c n_set_masses args o = (Ok r, o') -> exists a, args = map GT a.
Proof.
  unfold sm_sig, callm. change (run junk c 2 n_set_masses) with (fun args =>
    match find_meth c n_set_masses with Some f => invoke junk (run junk c 1) f args | None => slift (UB TypeMismatch) end).
  cbn beta. destruct (find_meth c n_set_masses) as [f|]; [|discriminate]. unfold invoke. intros HS.
  destruct (bind_args (m_params f) args (env0 junk)) as [l|e|u] eqn:EB; try discriminate. intros _.
  revert args EB. generalize (env0 junk). induction (m_params f) as [|[x kd] ps IH]; intros e a EB.
  - destruct a; [exists []; reflexivity|discriminate EB].
  - cbn in HS. apply andb_prop in HS as [H1 H2]. destruct kd; try discriminate H1.
    destruct a as [|[z|v|q] a]; try discriminate EB. cbn in EB. destruct (IH H2 _ _ EB) as (a' & ->). exists (v :: a'). reflexivity.
Qed.
Lemma reached_twin {num : Num} (junk : id -> nat -> T num) c b o : In c sm_classes -> shape c = POk b ->
  has_masses b = true -> reached junk c o -> twin (dyn_mask c) b o o.
Proof.
  intros Hc EB HM HR. induction HR as [params o EC|o m args r o' HR IH Hm EC HS].
  - apply twin_self; [eapply construct_shaped; eauto|]. intros x Hx. eapply construct_known; eauto.
  - destruct (is_setter m) eqn:EM.
    + unfold is_setter in EM. rewrite Hm, orb_false_r in EM. specialize (HS EM). apply Pos.eqb_eq in EM. subst m.
      destruct r as [r|e|u]; try discriminate HS.
      assert (HF : exists f, find_meth c n_set_masses = Some f).
      { destruct (find_meth c n_set_masses) as [f|] eqn:EF; [eauto|]. exfalso.
        unfold callm in EC. change (run junk c 2 n_set_masses) with (fun args =>
          match find_meth c n_set_masses with Some f => invoke junk (run junk c 1) f args | None => slift (UB TypeMismatch) end) in EC.
        cbn beta in EC. rewrite EF in EC. discriminate EC. }
      destruct HF as (f & EF). destruct (setm_c c Hc b f EF EB) as (HSig & b2 & EB2 & HCl).
      destruct (set_masses_args junk c args o r o' HSig EC) as (a & ->).
      destruct IH as (S1 & _ & o0 & vT & vR & HAg). destruct (HAg []) as [A1 _].
      eapply (masses_twins c b junk junk o o o a r r o' o' b2); eauto using like_refl.
      * apply mass_ok; [exact Hc|reflexivity].
      * intros x Hx. eexists. apply (ag_T _ _ _ _ _ _ A1), known_weaken, Hx.
    + apply (twin_like _ _ o o); [reflexivity|exact IH| |].
      * pose proof (method_quiet junk c (dyn_mask c) m args (dyn_ok c Hc m EM) o) as K. rewrite EC in K. exact K.
      * pose proof (method_quiet junk c (dyn_mask c) m args (dyn_ok c Hc m EM) o) as K. rewrite EC in K. exact K.
Qed.

(** the mass of the p-th external particle *)
Definition leg_mass {num : Num} (o : obj num) (p : nat) (m : T num) : Prop :=
  exists P, nth_error (o_heap o) p = Some P /\ mass P = Ok m.
(** massless particles have mass 0, massive ones have not *)
Definition right_mass {num : Num} (c : cls) (p : nat) (m : T num) : Prop :=
  match leg c p with Some z => teqb m (tZ 0) = z | None => True end.

Theorem C45_no_exception :
  forall c, In c sm_classes ->
  forall (num : Num), polar_total (num:=num) ->
  forall (junk : id -> nat -> T num) (o : obj num), reached junk c o ->
  forall m1 m2 m3 m4 : T num,
    leg_mass o 0 m1 -> leg_mass o 1 m2 -> leg_mass o 2 m3 -> leg_mass o 3 m4 ->
    right_mass c 0 m1 -> right_mass c 1 m2 -> right_mass c 2 m3 -> right_mass c 3 m4 ->
  forall q1 q2 q3 q4 : mom num,
    fst (particle_new (fun _ => tZ 0) q1 m1) = Ok tt -> fst (particle_new (fun _ => tZ 0) q2 m2) = Ok tt ->
    fst (particle_new (fun _ => tZ 0) q3 m3) = Ok tt -> fst (particle_new (fun _ => tZ 0) q4 m4) = Ok tt ->
    let g := callm junk c n_set_momenta [GMom q1; GMom q2; GMom q3; GMom q4] o in
    fst g = Ok None /\
    forall rs, forallb reading rs = true ->
    forall m, argless c m ->
      exists x, fst (callm junk c m [] (snd (orun junk c rs (snd g)))) = Ok (Some x).
Proof.
  intros c Hc num HP junk o HR m1 m2 m3 m4 (P1 & E1 & M1) (P2 & E2 & M2) (P3 & E3 & M3) (P4 & E4 & M4)
    R1 R2 R3 R4 q1 q2 q3 q4 A1 A2 A3 A4. cbn zeta.
  destruct (shape_c c Hc) as (b & EB & HM & HA).
  destruct (reached_twin junk c b o Hc EB HM HR) as (HS & _ & o0 & vT & vR & HAg).
  set (q := [q1; q2; q3; q4]). destruct (HAg q) as [AG _]. set (E := ext_of o0 q []) in *.
  assert (XM : x_m E 0%nat = m1 /\ x_m E 1%nat = m2 /\ x_m E 2%nat = m3 /\ x_m E 3%nat = m4).
  { assert (K : forall p P m, (p < 4)%nat -> nth_error (o_heap o) p = Some P -> mass P = Ok m -> x_m E p = m).
    { intros p P m Hp Ep Em. destruct (ag_m _ _ _ _ _ _ AG p Hp) as (P' & F1 & F2). rewrite Ep in F1. injection F1 as <-.
      unfold mass in Em. rewrite F2 in Em. change (Ok (x_m E p) = Ok m) in Em. congruence. }
    repeat split; [apply (K 0%nat P1)|apply (K 1%nat P2)|apply (K 2%nat P3)|apply (K 3%nat P4)]; auto; lia. }
  destruct XM as (X1 & X2 & X3 & X4).
  assert (HAc : accepted E).
  { intros p Hp. destruct p as [|[|[|[|p]]]]; try lia; cbn [E ext_of x_q nth q].
    - rewrite <- X1 in A1. exact A1.
    - rewrite <- X2 in A2. exact A2.
    - rewrite <- X3 in A3. exact A3.
    - rewrite <- X4 in A4. exact A4. }
  destruct (given_momenta c (dyn_mask c) b (argless_list c) HP HA junk vT vR o o0 q eq_refl HS AG HAc) as (b1 & Eb & F1 & G1).
  split; [exact F1|]. intros rs Hrs m Hm.
  specialize (G1 rs (reading_reads c rs Hc Hrs) m). cbn zeta in G1. fold E in G1, Eb.
  assert (HF : fits c (pat_of E) = true).
  { unfold fits. cbn [seq forallb]. unfold right_mass in *. cbn [pat_of mkpat]. rewrite X1, X2, X3, X4.
    destruct (leg c 0), (leg c 1), (leg c 2), (leg c 3); subst; rewrite ?Bool.eqb_reflx; reflexivity. }
  pose proof (check45_c c Hc) as K. unfold check45 in K. rewrite EB in K.
  pose proof (proj1 (forallb_forall _ _) K (pat_of E) (all_pats_in _ _ _ _)) as K'. cbn beta in K'. rewrite HF in K'.
  cbn [negb orb] in K'. unfold returns in K'. rewrite Eb in K'.
  pose proof (proj1 (forallb_forall _ _) K' m (argless_in c m Hm)) as K2. cbn beta in K2.
  destruct (answer c (pat_of E) m b1) as [|e|[[y|] b3]]; try discriminate K2. unfold REF in G1.
  destruct (callm junk c m [] _) as [[[x|]|e|u] o']; try discriminate G1; [|contradiction]. exists x. reflexivity.
Qed.
Print Assumptions C45_no_exception.

(** In exact arithmetic: on-shell momenta. *)
Theorem C45_no_exception_on_shell :
  forall c, In c sm_classes ->
  forall st eps, (0 <= eps)%R ->
  forall (junk : id -> nat -> T (RN st eps)) (o : obj (RN st eps)), reached (num:=RN st eps) junk c o ->
  forall m1 m2 m3 m4 : R,
    leg_mass (num:=RN st eps) o 0 m1 -> leg_mass (num:=RN st eps) o 1 m2 -> leg_mass (num:=RN st eps) o 2 m3 -> leg_mass (num:=RN st eps) o 3 m4 ->
    (forall p m, In (p, m) [(0%nat, m1); (1%nat, m2); (2%nat, m3); (3%nat, m4)] -> leg c p = Some true -> m = 0%R) ->
    (forall p m, In (p, m) [(0%nat, m1); (1%nat, m2); (2%nat, m3); (3%nat, m4)] -> leg c p = Some false -> m <> 0%R) ->
  forall q1 q2 q3 q4 : vec4 R,
    on_shell m1 q1 -> on_shell m2 q2 -> on_shell m3 q3 -> on_shell m4 q4 ->
    let g := callm (num:=RN st eps) junk c n_set_momenta [GMom (num:=RN st eps) q1; GMom (num:=RN st eps) q2; GMom (num:=RN st eps) q3; GMom (num:=RN st eps) q4] o in
    fst g = Ok None /\
    forall rs, forallb reading rs = true ->
    forall m, argless c m ->
      exists x, fst (callm (num:=RN st eps) junk c m [] (snd (orun (num:=RN st eps) junk c rs (snd g)))) = Ok (Some x).
Proof.
  intros c Hc st eps He junk o HR m1 m2 m3 m4 L1 L2 L3 L4 HZ HN q1 q2 q3 q4 S1 S2 S3 S4.
  assert (RM : forall p m, In (p, m) [(0%nat, m1); (1%nat, m2); (2%nat, m3); (3%nat, m4)] -> right_mass (num:=RN st eps) c p m).
  { intros p m Hin. unfold right_mass. specialize (HZ p m Hin). specialize (HN p m Hin).
    destruct (leg c p) as [[|]|]; [| |exact I].
    - apply (Reqb_true m 0). auto.
    - apply (Reqb_false m 0). auto. }
  apply (C45_no_exception c Hc (RN st eps) (polar_real st eps) junk o HR m1 m2 m3 m4 L1 L2 L3 L4);
    try (apply RM; cbn; tauto).
  - destruct (new_on_shell st eps (fun _ => 0%R) m1 q1 He S1) as (P & E & _). cbn in E |- *. rewrite E. reflexivity.
  - destruct (new_on_shell st eps (fun _ => 0%R) m2 q2 He S2) as (P & E & _). cbn in E |- *. rewrite E. reflexivity.
  - destruct (new_on_shell st eps (fun _ => 0%R) m3 q3 He S3) as (P & E & _). cbn in E |- *. rewrite E. reflexivity.
  - destruct (new_on_shell st eps (fun _ => 0%R) m4 q4 He S4) as (P & E & _). cbn in E |- *. rewrite E. reflexivity.
Qed.
Print Assumptions C45_no_exception_on_shell.

(** ** Examples: eemm in x87 extended arithmetic, masses 12 and 5, energies 13 *)
Definition ex_params : list Q := [1; 12; 5; 20; 1; 80; 3 # 5; 2]%Q.
Definition ex_momenta : list (mom XN) := [zmom 13 5; zmom 13 (-5); zmom 13 12; zmom 13 (-12)]%Z.
Definition ex_history : list (ocall XN) :=
  [OCall n_set_momenta (map GMom (rev ex_momenta)); OCall n_amp2 []; OCall n_set_masses [];
   OCall n_amp [GI 1; GI 1; GI 1; GI (-1)]]%Z.
Definition run_ok (x : option F80) : bool := match x with Some v => finite_nonzero v | None => false end.
Example C43_example :
  In eemm sm_classes /\ polar_total (num:=XN) /\ argless eemm n_amp2 /\
  forallb (no_setter (num:=XN)) (firstn 2 ex_history) = true /\
  fst (fbuild eemm ex_params) = Ok tt /\
  fst (fmomenta eemm ex_momenta (snd (fbuild eemm ex_params))) = Ok None /\
  run_ok (fvalue eemm n_amp2 (snd (fmomenta eemm ex_momenta (snd (fbuild eemm ex_params))))) = true.
Proof.
  refine (conj _ (conj _ (conj _ (conj _ (conj _ (conj _ _)))))).
  - unfold sm_classes. rewrite !in_app_iff. cbn. tauto.
  - apply polar_lenient. reflexivity.
  - exists (match find_meth eemm n_amp2 with Some f => f | None => mkMeth xH [] SSkip end). split; reflexivity.
  - reflexivity.
  - vm_cast_no_check (eq_refl (@Ok unit tt)).
  - vm_cast_no_check (eq_refl (@Ok (option (ret XN)) None)).
  - vm_cast_no_check (eq_refl true).
Qed.
Definition ex_masses : list Q := [5; 12; 30; 90]%Q.
Example C43_example_masses :
  exists r o, callm junk0 eemm n_set_masses (map GT (fnums ex_masses)) (snd (fbuild eemm ex_params)) = (Ok r, o) /\
  fst (fmomenta eemm (rev ex_momenta) o) = Ok None /\
  run_ok (fvalue eemm n_amp2 (snd (fmomenta eemm (rev ex_momenta) o))) = true.
Proof.
  exists None, (snd (callm junk0 eemm n_set_masses (map GT (fnums ex_masses)) (snd (fbuild eemm ex_params)))).
  refine (conj _ (conj _ _)).
  - assert (K : fst (callm junk0 eemm n_set_masses (map GT (fnums ex_masses)) (snd (fbuild eemm ex_params))) = Ok None)
      by (vm_cast_no_check (eq_refl (@Ok (option (ret XN)) None))).
    destruct (callm junk0 eemm n_set_masses _ _) as [r o]. cbn in *. rewrite K. reflexivity.
  - vm_cast_no_check (eq_refl (@Ok (option (ret XN)) None)).
  - vm_cast_no_check (eq_refl true).
Qed.
(** the hypotheses of C45 on leg p: its mass is set, zero or not as the name of the class
    says, and the constructor of [particle] accepts its momentum *)
Definition ex_leg (c : cls) (q : list (mom XN)) (o : obj XN) (p : nat) : bool :=
  match nth_error (o_heap o) p, nth_error q p with
  | Some P, Some k =>
    match mass P with
    | Ok m => match leg c p with Some z => Bool.eqb (teqb m (tZ 0)) z | None => true end
              && isOk (fst (particle_new (num:=XN) (fun _ => tZ 0) k m))
    | _ => false
    end
  | _, _ => false
  end.
Lemma ex_leg_sound c q o p k : ex_leg c q o p = true -> nth_error q p = Some k ->
  exists m, leg_mass o p m /\ right_mass (num:=XN) c p m /\ fst (particle_new (num:=XN) (fun _ => tZ 0) k m) = Ok tt.
Proof.
  unfold ex_leg, leg_mass, right_mass. intros H Hk. rewrite Hk in H.
  destruct (nth_error (o_heap o) p) as [P|]; [|discriminate]. destruct (mass P) as [m| |] eqn:EP; try discriminate.
  apply andb_prop in H as [H1 H2]. exists m. split; [exists P; auto|]. split.
  - destruct (leg c p); [apply Bool.eqb_prop; exact H1|exact I].
  - destruct (fst (particle_new (num:=XN) (fun _ => tZ 0) k m)) as [[]| |]; try discriminate H2. reflexivity.
Qed.
Lemma pair_ok {A B} (x : outcome A * B) (a : A) : fst x = Ok a -> x = (Ok a, snd x).
Proof. destruct x. cbn. intros ->. reflexivity. Qed.
Lemma ex_legs_sound c q o p k : forallb (ex_leg c q o) (seq 0 4) = true -> (p < 4)%nat -> nth_error q p = Some k ->
  exists m, leg_mass o p m /\ right_mass (num:=XN) c p m /\ fst (particle_new (num:=XN) (fun _ => tZ 0) k m) = Ok tt.
Proof.
  intros H Hp. apply ex_leg_sound. apply (proj1 (forallb_forall _ _) H). apply in_seq. lia.
Qed.
Lemma fbuild_reached c params : fst (fbuild c params) = Ok tt -> reached junk0 c (snd (fbuild c params)).
Proof. intros H. exact (reached_new junk0 c (fnums params) _ (pair_ok _ _ H)). Qed.
Example C45_example :
  reached junk0 eemm (snd (fbuild eemm ex_params)) /\
  forall p k, (p < 4)%nat -> nth_error ex_momenta p = Some k ->
    exists m, leg_mass (snd (fbuild eemm ex_params)) p m /\ right_mass (num:=XN) eemm p m /\
              fst (particle_new (num:=XN) (fun _ => tZ 0) k m) = Ok tt.
Proof.
  split.
  - apply fbuild_reached. vm_cast_no_check (eq_refl (@Ok unit tt)).
  - intros p k. refine (ex_legs_sound _ _ _ p k _). vm_cast_no_check (eq_refl true).
Qed.
