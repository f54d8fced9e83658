(** * Lorentz invariance: C47

    amp2 does not change when the four momenta are rotated and boosted alike. *)
From Coq Require Import Reals QArith Qreals String Ascii Lra Lia.
From Coquelicot Require Import Complex.
From Verif Require Import Base Scalar RealNum Linear Integers Particle Sproduct Propagator Process
  ParticleProofs SpecSpinor ParticleReal SpinorReal Ready ParticleClaims SpecSproduct SpecChain ChainReal Utilities UtilReal Lorentz
  WorldProofs Lang LangFrame Pure PureProofs ReadOnly Sym SymEq SMNames SMRun SMTwins SMMasses SMAll SMChecks SMState PropsClasses PropsConstruct
  SMAmp2 SpinColour PropsAmp2 Gluons PropsGluons Poly Covariant SpinRot CovReal CovMove SM01 SM05 SM07.
Close Scope Q_scope.
Close Scope R_scope.
Open Scope nat_scope.

(** ** The check
    The methods whose values amp2 squares: those of C48. *)
Definition gN (c : cls) : list id :=
  match find (fun g => String.eqb (g_name g) (c_name c)) gluon_processes with Some g => [g_N g] | None => [] end.
Definition meths (c : cls) : list id :=
  if existsb (fun g => String.eqb (g_name g) (c_name c)) gluon_processes then gN c else map fst (structures c).
Lemma sm_covariant : forallb (fun c => forallb (fun v => covariant c v (meths c)) variants) sm_classes = true.
Proof. vm_cast_no_check (eq_refl true). Qed.

(** ** Two sets of momenta *)
Lemma pair_state {num : Num} (junk : id -> nat -> T num) c o h q q' rs rs' : In c sm_classes -> polar_total (num:=num) ->
  reached junk c o -> forallb no_setter h = true -> length q = 4 -> length q' = 4 ->
  let o' := snd (orun junk c h o) in
  isOk (fst (callm junk c n_set_momenta (map GMom q) o)) = true -> isOk (fst (callm junk c n_set_momenta (map GMom q') o')) = true ->
  forallb reading rs = true -> forallb reading rs' = true ->
  exists b pat b1 (rT rT' : tatom -> T num), shape c = POk b /\ In pat all_pats /\ after c (dyn_mask c) b pat = POk (None, b1) /\
    (forall p mu, (p < 4) -> rT (AMom p mu) = comp (nth p q (V4 (tZ 0) (tZ 0) (tZ 0) (tZ 0))) mu) /\
    (forall p mu, (p < 4) -> rT' (AMom p mu) = comp (nth p q' (V4 (tZ 0) (tZ 0) (tZ 0) (tZ 0))) mu) /\
    (forall a, match a with AMom _ _ => False | _ => True end -> rT a = rT' a) /\
    (forall p, (p < 4) -> exists P, nth_error (o_heap o) p = Some P /\ pa_m P = Val (rT (AMass p))) /\
    (forall p, (p < 4) -> pat p = teqb (rT (AMass p)) (tZ 0)) /\
    (forall r, k_R (dyn_mask c) r = false -> rT (APm r) = pr_m (o_R o r) /\ rT (APw r) = pr_w (o_R o r)) /\
    (forall x, known (dyn_mask c) b x = true -> o_T o x = Val (rT (AMem x))) /\
    (forall p, (p < 4) -> fst (particle_new (fun _ => tZ 0) (nth p q (V4 (tZ 0) (tZ 0) (tZ 0) (tZ 0))) (rT (AMass p))) = Ok tt) /\
    (forall p, (p < 4) -> fst (particle_new (fun _ => tZ 0) (nth p q' (V4 (tZ 0) (tZ 0) (tZ 0) (tZ 0))) (rT' (AMass p))) = Ok tt) /\
    (forall vC, oracle_ok true (RTs rT vC) (RCs rT vC) (Qj pat) /\
      OR true (RTs rT vC) (RCs rT vC) (Qj pat) (snd (orun junk c rs (snd (callm junk c n_set_momenta (map GMom q) o)))) b1) /\
    (forall vC, oracle_ok true (RTs rT' vC) (RCs rT' vC) (Qj pat) /\
      OR true (RTs rT' vC) (RCs rT' vC) (Qj pat) (snd (orun junk c rs' (snd (callm junk c n_set_momenta (map GMom q') o')))) b1).
Proof.
  intros Hc HP HR Hh HL HL' o' HOk HOk' Hrs Hrs'. destruct (shape_c c Hc) as (b & EB & HM & HA).
  pose proof (reached_twin junk c b o Hc EB HM HR) as TW.
  assert (TW' : twin (dyn_mask c) b o o').
  { apply (twin_like (dyn_mask c) b o o); [reflexivity|exact TW| |apply like_history; assumption].
    change o with (snd (orun junk c [] o)) at 2. apply like_history; [exact Hc|reflexivity]. }
  destruct TW' as (HS & HS' & o0 & vT & vR & HAg).
  destruct (HAg q) as (A & _). destruct (HAg q') as (_ & A').
  pose proof (returned_accepted c (dyn_mask c) b (takes_c c Hc) junk vT vR o o0 q HL A HOk) as HAc.
  pose proof (returned_accepted c (dyn_mask c) b (takes_c c Hc) junk vT vR o' o0 q' HL' A' HOk') as HAc'.
  destruct (given_state c (dyn_mask c) b (argless_list c) HP (takes_c c Hc) HA (fun _ _ => c0) junk vT vR o o0 q HL HS A HOk) as (b1 & Eb & _).
  exists b, (pat_of (ext_of o0 q [])), b1, (rT1 vT vR (ext_of o0 q [])), (rT1 vT vR (ext_of o0 q' [])).
  split; [exact EB|]. split; [apply all_pats_in|]. split; [exact Eb|]. split; [reflexivity|]. split; [reflexivity|].
  split; [intros [] H; try contradiction; reflexivity|].
  split; [intros p Hp; exact (ag_m _ _ _ _ _ _ A p Hp)|].
  split; [intros p Hp; symmetry; apply pat_of_ok|].
  split; [intros r Hr; rewrite (ag_R _ _ _ _ _ _ A r Hr); split; reflexivity|].
  split; [intros x Hx; exact (ag_T _ _ _ _ _ _ A x Hx)|].
  split; [exact HAc|]. split; [exact HAc'|]. split.
  - intros vC. split; [exact (Qj_ok vT vR _ vC _ HP HAc (pat_of_ok o0 q))|].
    apply reads_keep; [apply reading_reads; assumption|].
    destruct (given_state c (dyn_mask c) b (argless_list c) HP (takes_c c Hc) HA vC junk vT vR o o0 q HL HS A HOk) as (b2 & Eb2 & K).
    rewrite Eb in Eb2. injection Eb2 as <-. exact K.
  - intros vC. split; [exact (Qj_ok vT vR _ vC _ HP HAc' (pat_of_ok o0 q'))|].
    apply reads_keep; [apply reading_reads; assumption|].
    destruct (given_state c (dyn_mask c) b (argless_list c) HP (takes_c c Hc) HA vC junk vT vR o' o0 q' HL' HS' A' HOk') as (b2 & Eb2 & K).
    change (pat_of (ext_of o0 q' [])) with (pat_of (ext_of o0 q [])) in Eb2.
    rewrite Eb in Eb2. injection Eb2 as <-. exact K.
Qed.

(** ** Sums over permuted lists *)
Open Scope R_scope.
Lemma Rsum_swap {A B} (f : A -> B -> R) l l' : Rsum (fun x => Rsum (f x) l') l = Rsum (fun y => Rsum (fun x => f x y) l) l'.
Proof.
  induction l as [|x l IH]; cbn [Rsum]; [symmetry; apply Rsum_zero|]. rewrite IH, <- Rsum_plus. reflexivity.
Qed.
Lemma take_zs_ok (f : list Z -> R) x : forall l r, take_zs x l = Some r -> Rsum f l = f x + Rsum f r.
Proof.
  induction l as [|y l IH]; cbn [take_zs]; intros r H; [discriminate H|]. destruct (zs_eqb x y) eqn:E.
  - apply zs_eqb_eq in E. injection H as <-. subst y. reflexivity.
  - destruct (take_zs x l) as [r'|]; [|discriminate H]. injection H as <-. cbn [Rsum]. rewrite (IH r' eq_refl). ring.
Qed.
Lemma shuffled_ok (f : list Z -> R) : forall l l', shuffled l l' = true -> Rsum f l = Rsum f l'.
Proof.
  induction l as [|x l IH]; cbn [shuffled]; intros l' H; [destruct l'; [reflexivity|discriminate H]|].
  destruct (take_zs x l') as [r|] eqn:E; [|discriminate H]. rewrite (take_zs_ok f x _ _ E). cbn [Rsum]. rewrite (IH r H). reflexivity.
Qed.
Lemma choose4 {A} (P : nat -> A -> Prop) (d : A) : (forall p, (p < 4)%nat -> exists x, P p x) ->
  exists f, (forall p, (p < 4)%nat -> P p (f p)) /\ forall p, (4 <= p)%nat -> f p = d.
Proof.
  intros H. destruct (H 0%nat) as (x0 & H0); [lia|]. destruct (H 1%nat) as (x1 & H1); [lia|].
  destruct (H 2%nat) as (x2 & H2); [lia|]. destruct (H 3%nat) as (x3 & H3); [lia|].
  exists (fun p => match p with 0 => x0 | 1 => x1 | 2 => x2 | 3 => x3 | _ => d end%nat). split.
  - intros [|[|[|[|p]]]] Hp; try assumption; lia.
  - intros [|[|[|[|p]]]] Hp; try lia; reflexivity.
Qed.

(** ** The sums over spins *)
Section Pair.
  Variables (st : bool) (eps : R).
  Notation num := (RN st eps).
  Hypothesis He : 0 <= eps.
  Variable L : cmatrix num.
  Hypothesis HL : detm st eps L = RtoC 1.
  Variable junk : id -> nat -> T num.
  Variable c : cls.
  Hypothesis Hc : In c sm_classes.
  Variable o : obj num.
  Hypothesis HR : reached (num:=num) junk c o.
  Variable h : list (ocall num).
  Hypothesis Hh : forallb no_setter h = true.
  Notation o' := (snd (orun (num:=num) junk c h o)).
  Variables q q' : list (vec4 R).
  Hypothesis Hq : length q = 4%nat.
  Hypothesis Hq' : length q' = 4%nat.
  Notation at_ q p := (nth p q (V4 0 0 0 0)).
  Hypothesis HV : forall p, (p < 4)%nat -> moved st eps L (at_ q p) (at_ q' p).
  Variable ms : nat -> R.
  Hypothesis HM : forall p, (p < 4)%nat -> leg_mass (num:=num) o p (ms p).
  Hypothesis HZ : forall p, (p < 4)%nat -> right_mass (num:=num) c p (ms p).
  Hypothesis HS : forall p, (p < 4)%nat -> on_shell (ms p) (at_ q p) /\ 0 <= v_0 (at_ q p).
  Variables rs rs' : list (ocall num).
  Hypothesis Hrs : forallb reading rs = true.
  Hypothesis Hrs' : forallb reading rs' = true.
  Notation g := (callm (num:=num) junk c n_set_momenta (map (GMom (num:=num)) q) o).
  Notation g' := (callm (num:=num) junk c n_set_momenta (map (GMom (num:=num)) q') o').
  Hypothesis HOk : isOk (fst g) = true.
  Hypothesis HOk' : isOk (fst g') = true.
  Notation o2 := (snd (orun (num:=num) junk c rs (snd g))).
  Notation o2' := (snd (orun (num:=num) junk c rs' (snd g'))).
  Notation M := (amp_of (num:=num) junk c o2 : id -> list Z -> C).
  Notation M' := (amp_of (num:=num) junk c o2' : id -> list Z -> C).
  Variable v : id * list Z.
  Hypothesis Hv : In v variants.
  Hypothesis HF : find_meth c (fst v) <> None.

  Lemma moved_shell m p : (p < 4)%nat -> on_shell m (at_ q p) -> on_shell m (at_ q' p).
  Proof.
    intros Hp H. unfold on_shell in *. rewrite <- H.
    exact (moved_dot st eps L HL _ _ _ _ (HV p Hp) (HV p Hp)).
  Qed.
  Lemma squares_move {A} (js : list A) (mt : A -> id) : map mt js = meths c -> forall (t : A -> C),
    Rsum (fun s => Cmod (Csum (fun j => Cmult (t j) (M (mt j) s)) js) ^ 2) (configs c (snd v)) =
    Rsum (fun s => Cmod (Csum (fun j => Cmult (t j) (M' (mt j) s)) js) ^ 2) (configs c (snd v)).
  Proof.
    intros Hjs t. pose proof (proj1 (forallb_forall _ _) sm_covariant c Hc) as K0. cbv beta in K0.
    pose proof (proj1 (forallb_forall _ _) K0 v Hv) as K. cbv beta in K. clear K0. unfold covariant in K.
    destruct (find_meth c (fst v)) as [fm|] eqn:EF; [|contradiction HF; reflexivity].
    destruct (spins_ok c (snd v)) eqn:ES; [|discriminate K]. unfold spins_ok in ES. cbn zeta in ES.
    set (ks := lkinds c (snd v)) in *.
    destruct (Nat.eqb (length (map klist ks)) 4) eqn:EL; [|discriminate ES]. apply Nat.eqb_eq in EL. rewrite map_length in EL.
    destruct (zsss_eqb (map klist ks) (polarised (snd v) (legs c))); [|discriminate ES].
    rewrite <- !(shuffled_ok _ _ _ ES), !Rsum_map, !sum_by_tops.
    destruct (pair_state (num:=num) junk c o h q q' rs rs' Hc (polar_real st eps) HR Hh Hq Hq' HOk HOk' Hrs Hrs')
      as (b & pat & b1 & rT & rT' & EB & HI & EA & R1 & R2 & R3 & R4 & R5 & _ & _ & R6 & R7 & HQ & HQ').
    assert (RM : forall p, (p < 4)%nat -> rT (AMass p) = ms p).
    { intros p Hp. destruct (HM p Hp) as (P & E1 & E2). destruct (R4 p Hp) as (P' & E3 & E4). rewrite E1 in E3. injection E3 as <-.
      unfold mass in E2. rewrite E4 in E2. change (Ok (rT (AMass p) : T num) = Ok (ms p : T num)) in E2. congruence. }
    unfold covar_all in K. rewrite EB in K. pose proof (proj1 (forallb_forall _ _) K pat HI) as K1. cbv beta in K1. clear K.
    assert (HFt : fits c pat = true).
    { unfold fits. apply forallb_forall. intros p Hp. apply in_seq in Hp. assert (Hp4 : (p < 4)%nat) by lia.
      pose proof (HZ p Hp4) as Z. unfold right_mass in Z. destruct (leg c p) as [z|]; [|reflexivity].
      rewrite (R5 p Hp4), RM, Z by assumption. apply Bool.eqb_reflx. }
    rewrite HFt, EA in K1.
    destruct (choose4 (fun p (x : C * C * C) => let '(a, b0, l) := x in
        Cplus (Cmult a (Cconj a)) (Cmult b0 (Cconj b0)) = RtoC 1 /\ Cmult l (Cconj l) = RtoC 1 /\
        (pat p = false -> move st eps L (up_of st eps (at_ q p)) = comb st eps (Cconj a) (up_of st eps (at_ q' p)) (Copp (Cconj b0)) (down_of st eps (at_ q' p)) /\
           move st eps L (down_of st eps (at_ q p)) = comb st eps b0 (up_of st eps (at_ q' p)) a (down_of st eps (at_ q' p))) /\
        (pat p = true -> move st eps L (flat_of st eps (at_ q p)) = phase st eps l (flat_of st eps (at_ q' p))))
        (RtoC 1, RtoC 0, RtoC 1)) as (f & Hf & Hd).
    { intros p Hp. destruct (HS p Hp) as (S1 & S2). pose proof (moved_shell _ p Hp S1) as S3.
      pose proof (moved_energy st eps L _ _ _ S1 S2 (HV p Hp)) as S4.
      assert (U1 : Cplus (Cmult (RtoC 1) (Cconj (RtoC 1))) (Cmult (RtoC 0) (Cconj (RtoC 0))) = RtoC 1) by (unfold Cplus, Cmult, Cconj, RtoC; cbn; f_equal; ring).
      assert (U2 : Cmult (RtoC 1) (Cconj (RtoC 1)) = RtoC 1) by (unfold Cmult, Cconj, RtoC; cbn; f_equal; ring).
      pose proof (R5 p Hp) as EP. rewrite (RM p Hp) in EP. destruct (pat p).
      - symmetry in EP. change (Reqb (ms p) 0 = true) in EP. apply Reqb_true in EP. rewrite EP in S1, S3.
        destruct (massless_move st eps L HL _ _ S1 S2 S3 S4 (HV p Hp)) as (l & E1 & E2).
        exists (RtoC 1, RtoC 0, l). repeat split; try assumption; intros; try discriminate; assumption.
      - symmetry in EP. change (Reqb (ms p) 0 = false) in EP. apply Reqb_false in EP.
        destruct (massive_move st eps L HL _ _ _ EP S1 S2 S3 S4 (HV p Hp)) as (a & b0 & E1 & E2 & E3).
        exists (a, b0, RtoC 1). repeat split; try assumption; intros; try discriminate; assumption. }
    set (a := fun p => fst (fst (f p))). set (b0 := fun p => snd (fst (f p))). set (l := fun p => snd (f p)).
    assert (HfA : forall p, Cplus (Cmult (a p) (Cconj (a p))) (Cmult (b0 p) (Cconj (b0 p))) = RtoC 1 /\ Cmult (l p) (Cconj (l p)) = RtoC 1).
    { intros p. unfold a, b0, l. destruct (le_lt_dec 4 p) as [Hp|Hp].
      - rewrite (Hd p Hp). cbn [fst snd]. split; unfold Cplus, Cmult, Cconj, RtoC; cbn; f_equal; ring.
      - pose proof (Hf p Hp) as E. destruct (f p) as [[? ?] ?]. cbn [fst snd]. tauto. }
    assert (HU : forall p, (p < 4)%nat -> pat p = false ->
      move st eps L (up_of st eps (at_ q p)) = comb st eps (Cconj (a p)) (up_of st eps (at_ q' p)) (Copp (Cconj (b0 p))) (down_of st eps (at_ q' p)) /\
      move st eps L (down_of st eps (at_ q p)) = comb st eps (b0 p) (up_of st eps (at_ q' p)) (a p) (down_of st eps (at_ q' p))).
    { intros p Hp Ep. pose proof (Hf p Hp) as E. unfold a, b0. destruct (f p) as [[? ?] ?]. cbn [fst snd]. tauto. }
    assert (HFl : forall p, (p < 4)%nat -> pat p = true -> move st eps L (flat_of st eps (at_ q p)) = phase st eps (l p) (flat_of st eps (at_ q' p))).
    { intros p Hp Ep. pose proof (Hf p Hp) as E. unfold l. destruct (f p) as [[? ?] ?]. cbn [fst snd]. tauto. }
    apply Rsum_ext. intros top Htop. pose proof (proj1 (forallb_forall _ _) K1 top Htop) as K2. cbv beta zeta in K2.
    set (w := first_weight c pat b1 top (meths c)) in K2.
    pose proof (fun j (Hj : In j js) => proj1 (forallb_forall _ _) K2 (mt j) ltac:(rewrite <- Hjs; apply in_map; exact Hj)) as K3. clear K2.
    apply (forms_squares a b0 ks (fun s => Csum (fun j => Cmult (t j) (M (mt j) (order c s))) js)
             (fun s => Csum (fun j => Cmult (t j) (M' (mt j) (order c s))) js) top); [intros p; exact (proj1 (HfA p))|].
    exists (prod4 l (four_at w)). split; [apply prod4_unit; intros p; exact (proj2 (HfA p))|].
    intros z. rewrite !form_sum, <- Csum_scale. apply Csum_ext. intros j Hj.
    rewrite !(form_scale ks (fun s => amp_of junk c _ (mt j) (order c s)) (t j)).
    assert (VAL : forall vC vC' s y, amp_at c pat b1 (mt j) s = Some y -> vC = M -> vC' = M' -> M (mt j) (order c s) = denC (num:=num) rT M y /\ M' (mt j) (order c s) = denC (num:=num) rT' M' y).
    { intros vC vC' s y Ey _ _. unfold amp_at in Ey. destruct (pinner (Qj pat) c b1 (mt j) (order c s)) as [|e|y'] eqn:EY; try discriminate Ey. injection Ey as <-.
      destruct (HQ M) as (Q1 & Q2). destruct (HQ' M') as (Q3 & Q4).
      split; [exact (proj2 (amp_value junk c pat b1 o2 rT Q1 Q2 (mt j) (order c s) y' EY))|
              exact (proj2 (amp_value junk c pat b1 o2' rT' Q3 Q4 (mt j) (order c s) y' EY))]. }
    pose proof (covar_move st eps L HL rT rT' M M' (fun p => at_ q p) (fun p => at_ q' p) pat R1 R2 HV R3 a b0 l HU HFl (fun p => proj2 (HfA p)) z R5 R6 R7 c b1
      ks top w (mt j) (fun s => M (mt j) (order c s)) (fun s => M' (mt j) (order c s)) EL) as KK.
    rewrite KK; [ring| | |exact (K3 j Hj)].
    - intros s y Ey. exact (proj1 (VAL M M' s y Ey eq_refl eq_refl)).
    - intros s y Ey. exact (proj2 (VAL M M' s y Ey eq_refl eq_refl)).
  Qed.
End Pair.

(** ** amp2 *)
Lemma reached_history {num : Num} (junk : id -> nat -> T num) c h : forall o, forallb no_setter h = true ->
  reached junk c o -> reached junk c (snd (orun junk c h o)).
Proof.
  induction h as [|[m args] h IH]; intros o Hh HR; [exact HR|]. cbn [forallb] in Hh. apply andb_prop in Hh as [H1 H2].
  unfold no_setter, is_setter in H1. apply negb_true_iff, orb_false_iff in H1 as [H1 H3].
  cbn [orun]. change (ostep junk c (OCall m args) o) with (callm junk c m args o). destruct (callm junk c m args o) as [r o1] eqn:E.
  pose proof (IH o1 H2 (reached_call junk c o m args r o1 HR H3 E ltac:(rewrite H1; discriminate))) as K.
  destruct (orun junk c h o1). exact K.
Qed.
Lemma legs_history {num : Num} (junk : id -> nat -> T num) c o h p m : In c sm_classes -> reached junk c o -> forallb no_setter h = true ->
  (p < 4)%nat -> leg_mass o p m -> leg_mass (snd (orun junk c h o)) p m.
Proof.
  intros Hc HR Hh Hp (P & E1 & E2). destruct (shape_c c Hc) as (b & EB & HM & HA).
  pose proof (reached_twin junk c b o Hc EB HM HR) as TW.
  assert (TW' : twin (dyn_mask c) b o (snd (orun junk c h o))).
  { apply (twin_like (dyn_mask c) b o o); [reflexivity|exact TW| |apply like_history; assumption].
    change o with (snd (orun junk c [] o)) at 2. apply like_history; [exact Hc|reflexivity]. }
  destruct TW' as (HS & HS' & o0 & vT & vR & HAg). destruct (HAg []) as (A & A').
  destruct (ag_m _ _ _ _ _ _ A p Hp) as (P1 & F1 & F2). destruct (ag_m _ _ _ _ _ _ A' p Hp) as (P2 & G1 & G2).
  rewrite F1 in E1. injection E1 as ->. exists P2. split; [exact G1|]. unfold mass in *. rewrite G2, <- E2, F2. reflexivity.
Qed.
Lemma eeAZ_only : Forall (fun c => String.eqb (c_name c) "eeAZ" = true -> c = eeAZ) sm_classes.
Proof. unfold sm_classes. rewrite !Forall_app. repeat split; repeat constructor; first [intros H; vm_compute in H; discriminate H|reflexivity]. Qed.
Lemma eeAZ_amp2 : forallb (fun v => if Pos.eqb (fst v) n_amp2 then true else match find_meth eeAZ (fst v) with None => true | Some _ => false end) variants = true.
Proof. vm_cast_no_check (eq_refl true). Qed.
Lemma eeAZ_amp2_only (v : id * list Z) : In v variants -> find_meth eeAZ (fst v) <> None -> fst v = n_amp2.
Proof.
  intros Hv HF. pose proof (proj1 (forallb_forall _ _) eeAZ_amp2 v Hv) as EV. cbv beta in EV. destruct v as [m l]. cbn [fst] in *.
  destruct (Pos.eqb m n_amp2) eqn:EP; [apply Pos.eqb_eq, EP|exfalso].
  destruct (find_meth eeAZ m) as [f|] eqn:E; [discriminate EV|apply HF; reflexivity].
Qed.
Lemma gN_name g : In g gluon_processes -> forall c, c_name c = g_name g -> meths c = [g_N g].
Proof.
  intros Hg c Hn. unfold meths, gN. rewrite Hn. cbn in Hg. repeat destruct Hg as [<-|Hg]; try reflexivity. contradiction.
Qed.
Lemma special_split c : special c = true -> String.eqb (c_name c) "eeAZ" = true \/ exists g, In g gluon_processes /\ c_name c = g_name g.
Proof.
  unfold special. intros H. apply existsb_exists in H as (n & Hn & E). apply String.eqb_eq in E.
  cbn in Hn. repeat destruct Hn as [<-|Hn]; try contradiction; rewrite E.
  1-5: right. 6: left; reflexivity.
  all: rewrite <- E; assert (K : existsb (fun g => String.eqb (c_name c) (g_name g)) gluon_processes = true) by (rewrite E; reflexivity);
    apply existsb_exists in K as (g & Hg & Eg); exists g; split; [exact Hg|apply String.eqb_eq, Eg].
Qed.
Lemma ordinary_meths c : special c = false -> meths c = map fst (structures c).
Proof.
  unfold special, meths. intros H. destruct (existsb (fun g => String.eqb (g_name g) (c_name c)) gluon_processes) eqn:E; [exfalso|reflexivity].
  apply existsb_exists in E as (g & Hg & Eg). apply String.eqb_eq in Eg. rewrite <- Eg in H.
  cbn in Hg. repeat destruct Hg as [<-|Hg]; try discriminate H. contradiction.
Qed.

Theorem lorentz_amp2 st eps (L : cmatrix (RN st eps)) : 0 <= eps -> detm st eps L = RtoC 1 ->
  forall c, In c sm_classes ->
  forall v, In v variants -> argless c (fst v) ->
  forall (junk : id -> nat -> T (RN st eps)) (o : obj (RN st eps)), reached (num:=RN st eps) junk c o ->
  forall m1 m2 m3 m4 : R,
    leg_mass (num:=RN st eps) o 0 m1 -> leg_mass (num:=RN st eps) o 1 m2 -> leg_mass (num:=RN st eps) o 2 m3 -> leg_mass (num:=RN st eps) o 3 m4 ->
    (forall p m, In (p, m) [(0%nat, m1); (1%nat, m2); (2%nat, m3); (3%nat, m4)] -> leg c p = Some true -> m = 0) ->
    (forall p m, In (p, m) [(0%nat, m1); (1%nat, m2); (2%nat, m3); (3%nat, m4)] -> leg c p = Some false -> m <> 0) ->
  forall q1 q2 q3 q4 : vec4 R,
    on_shell m1 q1 -> on_shell m2 q2 -> on_shell m3 q3 -> on_shell m4 q4 ->
    0 <= v_0 q1 -> 0 <= v_0 q2 -> 0 <= v_0 q3 -> 0 <= v_0 q4 ->
  forall q1' q2' q3' q4' : vec4 R,
    moved st eps L q1 q1' -> moved st eps L q2 q2' -> moved st eps L q3 q3' -> moved st eps L q4 q4' ->
  forall h, forallb no_setter h = true ->
    let g := callm (num:=RN st eps) junk c n_set_momenta [GMom (num:=RN st eps) q1; GMom (num:=RN st eps) q2; GMom (num:=RN st eps) q3; GMom (num:=RN st eps) q4] o in
    let g' := callm (num:=RN st eps) junk c n_set_momenta [GMom (num:=RN st eps) q1'; GMom (num:=RN st eps) q2'; GMom (num:=RN st eps) q3'; GMom (num:=RN st eps) q4']
                (snd (orun (num:=RN st eps) junk c h o)) in
  forall rs rs', forallb reading rs = true -> forallb reading rs' = true ->
  exists x : R,
    fst (callm (num:=RN st eps) junk c (fst v) [] (snd (orun (num:=RN st eps) junk c rs (snd g)))) = Ok (Some (RtT (num:=RN st eps) x)) /\
    fst (callm (num:=RN st eps) junk c (fst v) [] (snd (orun (num:=RN st eps) junk c rs' (snd g')))) = Ok (Some (RtT (num:=RN st eps) x)).
Proof.
  intros He HL c Hc v Hv HA junk o HR m1 m2 m3 m4 L1 L2 L3 L4 HZ HN q1 q2 q3 q4 S1 S2 S3 S4 N1 N2 N3 N4
    q1' q2' q3' q4' V1 V2 V3 V4' h Hh g g' rs rs' Hrs Hrs'.
  set (o' := snd (orun (num:=RN st eps) junk c h o)) in *.
  assert (HR' : reached (num:=RN st eps) junk c o') by (apply reached_history; assumption).
  assert (L1' : leg_mass (num:=RN st eps) o' 0 m1) by (apply legs_history; try assumption; lia).
  assert (L2' : leg_mass (num:=RN st eps) o' 1 m2) by (apply legs_history; try assumption; lia).
  assert (L3' : leg_mass (num:=RN st eps) o' 2 m3) by (apply legs_history; try assumption; lia).
  assert (L4' : leg_mass (num:=RN st eps) o' 3 m4) by (apply legs_history; try assumption; lia).
  assert (SH : forall m q q', moved st eps L q q' -> on_shell m q -> on_shell m q').
  { intros m q q' V S. unfold on_shell in *. rewrite <- S. exact (moved_dot st eps L HL _ _ _ _ V V). }
  pose proof (SH _ _ _ V1 S1) as S1'. pose proof (SH _ _ _ V2 S2) as S2'. pose proof (SH _ _ _ V3 S3) as S3'. pose proof (SH _ _ _ V4' S4) as S4'.
  destruct (C45_no_exception_on_shell c Hc st eps He junk o HR m1 m2 m3 m4 L1 L2 L3 L4 HZ HN q1 q2 q3 q4 S1 S2 S3 S4) as (G & H).
  destruct (C45_no_exception_on_shell c Hc st eps He junk o' HR' m1 m2 m3 m4 L1' L2' L3' L4' HZ HN q1' q2' q3' q4' S1' S2' S3' S4') as (G' & H').
  destruct (H rs Hrs (fst v) HA) as (y & Hy). destruct (H' rs' Hrs' (fst v) HA) as (y' & Hy'). fold g in Hy, G. fold g' in Hy', G'.
  set (ms := fun p => match p with 0 => m1 | 1 => m2 | 2 => m3 | _ => m4 end%nat).
  assert (HF : find_meth c (fst v) <> None) by (destruct HA as (f & E & _); rewrite E; discriminate).
  pose proof (squares_move st eps L HL junk c Hc o HR h Hh [q1; q2; q3; q4] [q1'; q2'; q3'; q4'] eq_refl eq_refl) as SM.
  assert (SQ : forall A (js : list A) (mt : A -> id), map mt js = meths c -> forall t : A -> C,
    Rsum (fun s => Cmod (Csum (fun j => Cmult (t j) (amp_of (num:=RN st eps) junk c (snd (orun junk c rs (snd g))) (mt j) s)) js) ^ 2) (configs c (snd v)) =
    Rsum (fun s => Cmod (Csum (fun j => Cmult (t j) (amp_of (num:=RN st eps) junk c (snd (orun junk c rs' (snd g'))) (mt j) s)) js) ^ 2) (configs c (snd v))).
  { intros A js mt Hj t. refine (SM _ ms _ _ _ rs rs' Hrs Hrs' _ _ v Hv HF A js mt Hj t).
    - intros [|[|[|[|p]]]] Hp; try lia; assumption.
    - intros [|[|[|[|p]]]] Hp; try lia; assumption.
    - assert (RM : forall p m, In (p, m) [(0%nat, m1); (1%nat, m2); (2%nat, m3); (3%nat, m4)] -> right_mass (num:=RN st eps) c p m).
      { intros p m Hin. unfold right_mass. specialize (HZ p m Hin). specialize (HN p m Hin).
        destruct (leg c p) as [[|]|]; [| |exact I].
        - apply (Reqb_true m 0). auto.
        - apply (Reqb_false m 0). auto. }
      intros [|[|[|[|p]]]] Hp; try lia; apply RM; cbn; tauto.
    - intros [|[|[|[|p]]]] Hp; try lia; split; assumption.
    - exact (f_equal isOk G).
    - exact (f_equal isOk G'). }
  clear SM. set (M := amp_of (num:=RN st eps) junk c (snd (orun junk c rs (snd g)))) in *. set (M' := amp_of (num:=RN st eps) junk c (snd (orun junk c rs' (snd g')))) in *.
  rewrite Hy, Hy'. destruct (special c) eqn:ES.
  - destruct (special_split c ES) as [EZ|(gp & Hg & Hn)].
    + pose proof (proj1 (Forall_forall _ _) eeAZ_only c Hc EZ) as ->.
      pose proof (eeAZ_amp2_only v Hv HF) as EP. rewrite EP in Hy, Hy'.
      exists 0. rewrite (proj2 (C48_eeAZ st eps junk o HR q1 q2 q3 q4 (f_equal isOk G) rs Hrs) _ Hy).
      rewrite (proj2 (C48_eeAZ st eps junk o' HR' q1' q2' q3' q4' (f_equal isOk G') rs' Hrs') _ Hy'). split; reflexivity.
    + assert (LQ : exists m, leg_mass (num:=RN st eps) o (g_q gp) m /\ leg_mass (num:=RN st eps) o' (g_q gp) m).
      { cbn in Hg. repeat destruct Hg as [<-|Hg]; try contradiction; eexists; split; cbn [g_q]; eassumption. }
      destruct LQ as (m & LQ & LQ').
      destruct (C48_gluon_weights gp c Hg Hc Hn v Hv st eps junk o HR m LQ q1 q2 q3 q4 (f_equal isOk G) rs Hrs _ Hy) as (x & N & E1 & E2 & _ & E3).
      destruct (C48_gluon_weights gp c Hg Hc Hn v Hv st eps junk o' HR' m LQ' q1' q2' q3' q4' (f_equal isOk G') rs' Hrs' _ Hy') as (x' & N' & E1' & E2' & _ & E3').
      exists x. rewrite E1, E1'. split; [reflexivity|]. do 3 f_equal. rewrite E3, E3'. f_equal. f_equal.
      * assert (GD : forall k, gden gp m q1 q2 q3 q4 k = gden gp m q1' q2' q3' q4' k).
        { intros k. unfold gden. f_equal.
          pose proof (moved_dot st eps L HL) as D.
          assert (A : forall p q, minksq (vadd p q) = minkdot p p + minkdot q q + 2 * minkdot p q) by (intros; unfold minksq, minkdot, vadd; cbn [v_0 v_1 v_2 v_3]; ring).
          assert (B : forall p q, minksq (vsub p q) = minkdot p p + minkdot q q - 2 * minkdot p q) by (intros; unfold minksq, minkdot, vsub; cbn [v_0 v_1 v_2 v_3]; ring).
          destruct k as [|[|k]]; cbn [chan]; rewrite ?A, ?B; rewrite <- ?(D q1 q1 q1' q1'), <- ?(D q2 q2 q2' q2'), <- ?(D q3 q3 q3' q3'), <- ?(D q4 q4 q4' q4'), <- ?(D q1 q2 q1' q2'), <- ?(D q1 q3 q1' q3'), <- ?(D q1 q4 q1' q4') by assumption; reflexivity. }
        unfold gweight. rewrite !GD. reflexivity.
      * pose proof (SQ unit [tt] (fun _ => g_N gp) ltac:(rewrite (gN_name gp Hg c Hn); reflexivity) (fun _ => RtoC 1)) as K.
        cbn [Csum] in K.
        symmetry. transitivity (Rsum (fun s => Cmod (Cplus (Cmult (RtoC 1) (M' (g_N gp) s)) (RtoC 0)) ^ 2) (configs c (snd v))).
        -- rewrite <- K. clear K. apply Rsum_ext. intros s Hs.
           assert (EM : M (g_N gp) s = N s) by (unfold M, amp_of, g; rewrite (E2 s Hs); reflexivity).
           rewrite EM, Cmult_1_l, Cplus_0_r. reflexivity.
        -- apply Rsum_ext. intros s Hs.
           assert (EM : M' (g_N gp) s = N' s) by (unfold M', amp_of, g'; rewrite (E2' s Hs); reflexivity).
           rewrite EM, Cmult_1_l, Cplus_0_r. reflexivity.
  - destruct (C48_spin_sums c Hc ES v Hv st eps junk o HR q1 q2 q3 q4 (f_equal isOk G) rs Hrs _ Hy) as (x & N & E1 & E2 & E3).
    destruct (C48_spin_sums c Hc ES v Hv st eps junk o' HR' q1' q2' q3' q4' (f_equal isOk G') rs' Hrs' _ Hy') as (x' & N' & E1' & E2' & E3').
    exists x. rewrite E1, E1'. split; [reflexivity|]. do 3 f_equal. symmetry. rewrite E3, E3'. f_equal. rewrite (Rsum_swap _ (configs c (snd v))), (Rsum_swap _ (configs c (snd v))).
    apply Rsum_ext. intros col _. unfold amplitude.
    pose proof (SQ _ (structures c) fst ltac:(symmetry; apply ordinary_meths; exact ES) (fun mt => tensor_at (snd mt) col)) as K.
    etransitivity; [|etransitivity; [exact K|]].
    + apply Rsum_ext. intros s Hs. f_equal. f_equal. apply Csum_ext. intros mt Hmt.
      assert (EM : M (fst mt) s = N (fst mt) s) by (unfold M, amp_of, g; rewrite (E2 mt s Hmt Hs); reflexivity). rewrite EM. reflexivity.
    + apply Rsum_ext. intros s Hs. f_equal. f_equal. apply Csum_ext. intros mt Hmt.
      assert (EM : M' (fst mt) s = N' (fst mt) s) by (unfold M', amp_of, g'; rewrite (E2' mt s Hmt Hs); reflexivity). rewrite EM. reflexivity.
Qed.

(** ** C47: rotations and boosts *)
(** a rotation by theta about a unit vector u, or a boost by a velocity v, as utilities.cpp makes them *)
Inductive lstep := Rot (u : vec3 R) (theta : R) | Boost (v : vec3 R).
Definition valid_step (s : lstep) : Prop :=
  match s with
  | Rot u _ => x_0 u * x_0 u + x_1 u * x_1 u + x_2 u * x_2 u = 1
  | Boost v => 0 < x_0 v * x_0 v + x_1 v * x_1 v + x_2 v * x_2 v < 1
  end.
Definition do_step st eps (q : vec4 R) (s : lstep) : vec4 R :=
  match s with
  | Rot u theta => rotate_momentum (num:=RN st eps) q u theta
  | Boost v => boost_momentum (num:=RN st eps) q v
  end.
(** one after the other *)
Definition do_steps st eps (ss : list lstep) (q : vec4 R) : vec4 R := fold_left (do_step st eps) ss q.

Lemma moved_one st eps q : moved st eps (CM (num:=RN st eps) (RtoC 1) (RtoC 0) (RtoC 0) (RtoC 1)) q q.
Proof. unfold moved, dag. to_reals; ring. Qed.
Lemma moved_two st eps L L2 q q' q'' : moved st eps L q q' -> moved st eps L2 q' q'' -> moved st eps (cm_mul L2 L) q q''.
Proof. unfold moved, dag. intros H1 H2. rewrite H2, H1. generalize (cmatrix_of_mom (num:=RN st eps) q false). intros m. to_reals; ring. Qed.
Lemma detm_mul st eps L L2 : detm st eps (cm_mul L2 L) = Cmult (detm st eps L2) (detm st eps L).
Proof. unfold detm. to_reals; ring. Qed.
Lemma steps_moved st eps ss : Forall valid_step ss -> exists L, detm st eps L = RtoC 1 /\ forall q, moved st eps L q (do_steps st eps ss q).
Proof.
  intros H. induction H as [|s ss Hs H (L & D & IH)].
  - eexists. split; [|intros q; apply moved_one]. unfold detm. to_reals; ring.
  - assert (K : exists L1, detm st eps L1 = RtoC 1 /\ forall q, moved st eps L1 q (do_step st eps q s)).
    { destruct s as [u theta|v]; [apply (rotate_moved st eps u theta); exact Hs|apply (boost_moved st eps v); exact Hs]. }
    destruct K as (L1 & D1 & K1). exists (cm_mul L L1). split.
    + rewrite detm_mul, D, D1. apply Cmult_1_l.
    + intros q. apply (moved_two st eps L1 L q (do_step st eps q s)); [apply K1|exact (IH (do_step st eps q s))].
Qed.

Theorem C47_lorentz_invariance :
  forall c, In c sm_classes ->
  forall v, In v variants -> argless c (fst v) ->
  forall st eps, 0 <= eps ->
  forall (junk : id -> nat -> T (RN st eps)) (o : obj (RN st eps)), reached (num:=RN st eps) junk c o ->
  forall m1 m2 m3 m4 : R,
    leg_mass (num:=RN st eps) o 0 m1 -> leg_mass (num:=RN st eps) o 1 m2 -> leg_mass (num:=RN st eps) o 2 m3 -> leg_mass (num:=RN st eps) o 3 m4 ->
    (forall p m, In (p, m) [(0%nat, m1); (1%nat, m2); (2%nat, m3); (3%nat, m4)] -> leg c p = Some true -> m = 0) ->
    (forall p m, In (p, m) [(0%nat, m1); (1%nat, m2); (2%nat, m3); (3%nat, m4)] -> leg c p = Some false -> m <> 0) ->
  forall q1 q2 q3 q4 : vec4 R,
    on_shell m1 q1 -> on_shell m2 q2 -> on_shell m3 q3 -> on_shell m4 q4 ->
    0 <= v_0 q1 -> 0 <= v_0 q2 -> 0 <= v_0 q3 -> 0 <= v_0 q4 ->
  forall ss, Forall valid_step ss ->
  forall h, forallb no_setter h = true ->
    let g := callm (num:=RN st eps) junk c n_set_momenta [GMom (num:=RN st eps) q1; GMom (num:=RN st eps) q2; GMom (num:=RN st eps) q3; GMom (num:=RN st eps) q4] o in
    let g' := callm (num:=RN st eps) junk c n_set_momenta
                [GMom (num:=RN st eps) (do_steps st eps ss q1); GMom (num:=RN st eps) (do_steps st eps ss q2);
                 GMom (num:=RN st eps) (do_steps st eps ss q3); GMom (num:=RN st eps) (do_steps st eps ss q4)]
                (snd (orun (num:=RN st eps) junk c h o)) in
  forall rs rs', forallb reading rs = true -> forallb reading rs' = true ->
  exists x : R,
    fst (callm (num:=RN st eps) junk c (fst v) [] (snd (orun (num:=RN st eps) junk c rs (snd g)))) = Ok (Some (RtT (num:=RN st eps) x)) /\
    fst (callm (num:=RN st eps) junk c (fst v) [] (snd (orun (num:=RN st eps) junk c rs' (snd g')))) = Ok (Some (RtT (num:=RN st eps) x)).
Proof.
  intros c Hc v Hv HA st eps He junk o HR m1 m2 m3 m4 L1 L2 L3 L4 HZ HN q1 q2 q3 q4 S1 S2 S3 S4 N1 N2 N3 N4 ss Hss h Hh.
  destruct (steps_moved st eps ss Hss) as (L & D & K).
  exact (lorentz_amp2 st eps L He D c Hc v Hv HA junk o HR m1 m2 m3 m4 L1 L2 L3 L4 HZ HN q1 q2 q3 q4 S1 S2 S3 S4 N1 N2 N3 N4
    _ _ _ _ (K q1) (K q2) (K q3) (K q4) h Hh).
Qed.
Print Assumptions C47_lorentz_invariance.

(** eemm with masses 12 and 5 and energies 13: a boost along z, then a quarter turn about x. *)
Lemma orun_one {num : Num} (junk : id -> nat -> T num) c m args o : snd (orun junk c [OCall m args] o) = snd (callm junk c m args o).
Proof. cbn [orun]. change (ostep junk c (OCall m args) o) with (callm junk c m args o). destruct (callm junk c m args o). reflexivity. Qed.
Definition ex47_steps : list lstep := [Boost (V3 0 0 (3 / 5)); Rot (V3 1 0 0) (PI / 2)].
Example C47_example :
  Forall valid_step ex47_steps /\
  do_steps false 0 ex47_steps (V4 13 0 0 5) <> V4 13 0 0 5 /\
  exists o : obj (RN false 0), reached (num:=RN false 0) (fun _ _ => 0) eemm o /\
    let g := callm (num:=RN false 0) (fun _ _ => 0) eemm n_set_momenta
      [GMom (num:=RN false 0) (V4 13 0 0 5); GMom (num:=RN false 0) (V4 13 0 0 (-5)); GMom (num:=RN false 0) (V4 13 0 0 12); GMom (num:=RN false 0) (V4 13 0 0 (-12))] o in
    let t q := GMom (num:=RN false 0) (do_steps false 0 ex47_steps q) in
    let g' := callm (num:=RN false 0) (fun _ _ => 0) eemm n_set_momenta [t (V4 13 0 0 5); t (V4 13 0 0 (-5)); t (V4 13 0 0 12); t (V4 13 0 0 (-12))] (snd g) in
    exists x, fst (callm (num:=RN false 0) (fun _ _ => 0) eemm n_amp2 [] (snd g)) = Ok (Some (RtT (num:=RN false 0) x)) /\
      fst (callm (num:=RN false 0) (fun _ _ => 0) eemm n_amp2 [] (snd g')) = Ok (Some (RtT (num:=RN false 0) x)).
Proof.
  assert (HV : Forall valid_step ex47_steps) by (repeat constructor; cbn; lra).
  split; [exact HV|]. split.
  { intros E. assert (Q : sqrt (1 - (0 * 0 + 0 * 0 + 3 / 5 * (3 / 5))) = 4 / 5).
    { replace (1 - (0 * 0 + 0 * 0 + 3 / 5 * (3 / 5))) with (4 / 5 * (4 / 5)) by field. apply sqrt_square. lra. }
    assert (E0 : v_0 (do_steps false 0 ex47_steps (V4 13 0 0 5)) = v_0 (boost_momentum (num:=RN false 0) (V4 13 0 0 5) (V3 0 0 (3 / 5)))).
    { unfold ex47_steps, do_steps. cbn [fold_left do_step]. unfold rotate_momentum.
      set (p := boost_momentum _ _). clearbody p. cbn. ring. }
    rewrite E in E0. cbn in E0. rewrite Q in E0. unfold lit in E0. lra. }
  assert (Hc : In eemm sm_classes) by (unfold sm_classes; rewrite !in_app_iff; cbn; tauto).
  assert (HA : argless eemm n_amp2)
    by (exists (match find_meth eemm n_amp2 with Some f => f | None => mkMeth xH [] SSkip end); split; reflexivity).
  pose proof eemm_legs as EP. destruct (built true eemm) as [|e|b] eqn:EB; try discriminate EP.
  destruct (new_real 0 (fun _ _ => 0) eemm ex48_params b EB eq_refl) as (o & HR & _ & HM).
  repeat match type of EP with context [match ?t with _ => _ end] => destruct t; try discriminate EP end.
  exists o. split; [exact HR|].
  assert (S5 : on_shell 12 (V4 13 0 0 5)) by (unfold on_shell, minksq; cbn; lra).
  assert (S5' : on_shell 12 (V4 13 0 0 (-5))) by (unfold on_shell, minksq; cbn; lra).
  assert (S12 : on_shell 5 (V4 13 0 0 12)) by (unfold on_shell, minksq; cbn; lra).
  assert (S12' : on_shell 5 (V4 13 0 0 (-12))) by (unfold on_shell, minksq; cbn; lra).
  assert (E13 : forall z, 0 <= v_0 (V4 13 0 0 z)) by (intros z; cbn; lra).
  pose proof (C47_lorentz_invariance eemm Hc (n_amp2, []) (or_introl eq_refl) HA false 0 ltac:(lra) (fun _ _ => 0) o HR 12 12 5 5
    (HM 0%nat _ _ eq_refl) (HM 1%nat _ _ eq_refl) (HM 2%nat _ _ eq_refl) (HM 3%nat _ _ eq_refl)
    ltac:(intros p m [[= <- <-]|[[= <- <-]|[[= <- <-]|[[= <- <-]|[]]]]]; discriminate)
    ltac:(intros p m [[= <- <-]|[[= <- <-]|[[= <- <-]|[[= <- <-]|[]]]]] _; lra)
    _ _ _ _ S5 S5' S12 S12' (E13 5) (E13 (-5)) (E13 12) (E13 (-12)) ex47_steps HV
    [OCall n_set_momenta [GMom (num:=RN false 0) (V4 13 0 0 5); GMom (num:=RN false 0) (V4 13 0 0 (-5)); GMom (num:=RN false 0) (V4 13 0 0 12); GMom (num:=RN false 0) (V4 13 0 0 (-12))]]
    eq_refl [] [] eq_refl eq_refl) as K. cbn zeta in K. rewrite orun_one in K. exact K.
Qed.
