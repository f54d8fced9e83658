(** * Spin and colour sums with several gluons: C48 and C46, continued *)
From Coq Require Import Reals QArith Qreals String Ascii Lra Lia.
From Coquelicot Require Import Complex.
From Verif Require Import Base Scalar RealNum ParticleReal Linear Integers Particle Sproduct Propagator Process
  ParticleProofs Ready ParticleClaims SpecSproduct WorldProofs Lang LangFrame Pure PureProofs ReadOnly Sym SymEq SMNames
  SMRun SMTwins SMMasses SMAll SMChecks SMState PropsClasses PropsConstruct PropsWidth SMAmp2 SpinColour PropsAmp2 SMInv Gluons SMFloat IEEE SM07.
Close Scope Q_scope.
Close Scope R_scope.
Open Scope st_scope.
Open Scope nat_scope.

(** ** The processes
    The amplitude is N/(a b) for the colour orders, N the method named first: [g_1] with the
    denominators of the channels [g_G] and [g_A], [g_2] with [g_G] and [g_B].  (Channel 0 is
    s, 1 is t, 2 is u.)  The particle in channel [g_G] is a gluon, in the others it is of the
    mass of the leg [g_q]. *)
Record gluons : Type := mkGluons {
  g_name : string; g_N : id; g_1 : gtensor; g_2 : gtensor; g_G : nat; g_A : nat; g_B : nat;
  g_prop : id; g_propg : id; g_q : nat }.
Definition gluon_processes : list gluons :=
  [mkGluons "ggdd" n_amp_Num (Tgg 0 1 2 3) (Tgg 1 0 2 3) 0 1 2 n_propd n_propg 2;
   mkGluons "gguu" n_amp_Num (Tgg 0 1 2 3) (Tgg 1 0 2 3) 0 1 2 n_propu n_propg 2;
   mkGluons "gugu" n_amp_Num (Tgg 0 2 3 1) (Tgg 2 0 3 1) 1 2 0 n_propu n_propg 1;
   mkGluons "dggd" n_amp_Num (Tgg 1 2 3 0) (Tgg 2 1 3 0) 2 1 0 n_propd n_propg 0;
   mkGluons "gggg" n_amp (Tff 0 1 2 3) (Tff 0 2 1 3) 2 0 1 n_prop n_prop 0].
Definition all_gluons (g : gluons) : bool := String.eqb (g_name g) "gggg".
Definition pden (k : nat) : id := match k with 0 => n_pDenS | 1 => n_pDenT | _ => n_pDenU end.

(** ** The check *)
(** the weight of every |N|^2 *)
Definition inv2 (q : sD) (x y : sT) : sT := TOp Div (TofD q) (TPw (TOp Mul x y)).
Definition weight (g : gluons) (D : nat -> sT) : sT :=
  if all_gluons g then
    TOp Add (TOp Add (inv2 (DLit 36) (D 0) (D 1)) (inv2 (DLit 36) (D 0) (D 2))) (inv2 (DLit 36) (D 1) (D 2))
  else
    TOp Sub (TOp Add (inv2 (DLit 6) (D (g_G g)) (D (g_A g))) (inv2 (DLit 6) (D (g_G g)) (D (g_B g))))
            (inv2 (DOp Div (DLit 2) (DLit 3)) (D (g_A g)) (D (g_B g))).
Definition weighted (g : gluons) (D : nat -> sT) (n : nat) : sT :=
  TOp Div (TOp Mul (TInt 1) (weight g D)) (TofD (DLit (Z.of_nat n # 1))).
Definition sden (g : gluons) (k : nat) : sT :=
  TRe (den_in (if Nat.eqb k (g_G g) then g_propg g else g_prop g) k).
Definition is_gsum (c : cls) (g : gluons) (pat : nat -> bool) (b1 : pobj snum) (m : id) (pol : list Z) : bool :=
  match summed c pat m b1 with
  | PExn _ => true
  | POk (Some (RtT t), _) =>
      match lin t with
      | Some l => forallb (fun e => eqT (fst e) (weighted g (sden g) (average c pol))) l &&
          rearranged (key_alike c pat b1) (map (fun e => (1%Q, snd e)) l) (map (fun s => (1%Q, KAbs (g_N g) s)) (configs c pol)) &&
          forallb (fun s => isPOk (pinner (Qj pat) c b1 (g_N g) s)) (configs c pol)
      | None => false
      end
  | _ => false
  end.
Definition gsums (c : cls) (g : gluons) (v : id * list Z) : bool :=
  match find_meth c (fst v) with
  | None => true
  | Some _ =>
    negb (Nat.eqb (average c (snd v)) 0) &&
    match shape c with
    | POk b => forallb (fun pat => match after c (dyn_mask c) b pat with POk (None, b1) => is_gsum c g pat b1 (fst v) (snd v) | _ => false end) all_pats
    | _ => false
    end
  end.
(** the colour sums, and which masses are the same *)
Definition gcolours (c : cls) (g : gluons) : bool :=
  if all_gluons g then csum_ok (g_1 g) (g_2 g) (colourings c) 72 72 36
  else csum_ok (g_1 g) (g_2 g) (colourings c) (16 # 3) (16 # 3) (-2 # 3).
Definition gmasses (c : cls) (g : gluons) : bool :=
  agree c (QProp (g_propg g)) QZero && agree c (QProp (g_prop g)) (QLeg (g_q g)) &&
  forallb (fun p => match leg c p with Some false => agree c (QLeg p) (QLeg (g_q g)) | _ => agree c (QLeg p) QZero end) (seq 0 4).
Definition gcheck (g : gluons) (c : cls) : bool :=
  if String.eqb (g_name g) (c_name c) then forallb (gsums c g) variants && gcolours c g && gmasses c g else true.
Lemma gluon_checks : forallb (fun g => forallb (gcheck g) sm_classes) gluon_processes = true.
Proof. vm_cast_no_check (eq_refl true). Qed.

(** ** Kinematics *)
Open Scope R_scope.
Definition vadd (p q : vec4 R) : vec4 R := V4 (v_0 p + v_0 q) (v_1 p + v_1 q) (v_2 p + v_2 q) (v_3 p + v_3 q).
Definition vsub (p q : vec4 R) : vec4 R := V4 (v_0 p - v_0 q) (v_1 p - v_1 q) (v_2 p - v_2 q) (v_3 p - v_3 q).
Definition chan (q1 q2 q3 q4 : vec4 R) (k : nat) : vec4 R :=
  match k with 0%nat => vadd q1 q2 | 1%nat => vsub q1 q3 | _ => vsub q1 q4 end.
(** s, t - m^2, u - m^2 and the like: the denominators *)
Definition gden (g : gluons) (m : R) (q1 q2 q3 q4 : vec4 R) (k : nat) : R :=
  minksq (chan q1 q2 q3 q4 k) - (if Nat.eqb k (g_G g) then 0 else m * m).
Definition gweight (g : gluons) (d : nat -> R) : R :=
  if all_gluons g then 36 / (d 0%nat * d 1%nat) ^ 2 + 36 / (d 0%nat * d 2%nat) ^ 2 + 36 / (d 1%nat * d 2%nat) ^ 2
  else 6 / (d (g_G g) * d (g_A g)) ^ 2 + 6 / (d (g_G g) * d (g_B g)) ^ 2 - 2 / 3 / (d (g_A g) * d (g_B g)) ^ 2.
(** the amplitude of a spin and colour configuration *)
Definition gamplitude (g : gluons) (N : list Z -> C) (d : nat -> R) (s : list Z) (col : list nat) : C :=
  (gtensor_at (g_1 g) col * (N s * RtoC (/ (d (g_G g) * d (g_A g)))) +
   gtensor_at (g_2 g) col * (N s * RtoC (/ (d (g_G g) * d (g_B g)))))%C.

Section Gluons.
  Variables (st : bool) (eps : R).
  Notation num := (RN st eps).
  Variable junk : id -> nat -> T num.
  Variable g : gluons.
  Variable c : cls.
  Hypothesis Hg : In g gluon_processes.
  Hypothesis Hc : In c sm_classes.
  Hypothesis Hn : c_name c = g_name g.
  Lemma gcheck_c : forallb (gsums c g) variants = true /\ gcolours c g = true /\ gmasses c g = true.
  Proof.
    pose proof (proj1 (forallb_forall _ _) gluon_checks g Hg) as K. cbv beta in K.
    pose proof (proj1 (forallb_forall _ _) K c Hc) as K2. unfold gcheck in K2. rewrite Hn, String.eqb_refl in K2.
    apply andb_prop in K2 as [K2 K3]. apply andb_prop in K2 as [K1 K2]. auto.
  Qed.
  Lemma sden_val rT rC q1 q2 q3 q4 m k : (k < 3)%nat ->
    (forall p mu, (p < 4)%nat -> rT (AMom p mu) = comp (num:=num) (nth p [q1; q2; q3; q4] (V4 (tZ (n:=num) 0) (tZ (n:=num) 0) (tZ (n:=num) 0) (tZ (n:=num) 0))) mu) ->
    rT (APm (g_propg g)) = 0 -> rT (APm (g_prop g)) = m ->
    denT (num:=num) rT rC (sden g k) = gden g m q1 q2 q3 q4 k.
  Proof.
    intros Hk HM E1 E2.
    assert (E : denT (num:=num) rT rC (sden g k) = minksq (chan q1 q2 q3 q4 k) - rT (APm (if Nat.eqb k (g_G g) then g_propg g else g_prop g)) * rT (APm (if Nat.eqb k (g_G g) then g_propg g else g_prop g))).
    { destruct k as [|[|[|k]]]; try lia; unfold sden; cbn -[Nat.eqb]; rewrite !HM by lia; reflexivity. }
    rewrite E. unfold gden. destruct (Nat.eqb k (g_G g)); [rewrite E1|rewrite E2]; inR; ring.
  Qed.

  (** the weights, whether momentum is conserved or not *)
  Lemma gsums_ok v : In v variants ->
    forall o m q1 q2 q3 q4 rs, reached junk c o -> leg_mass o (g_q g) m ->
    isOk (fst (callm junk c n_set_momenta (map GMom [q1; q2; q3; q4]) o)) = true -> forallb reading rs = true ->
    let o2 := snd (orun junk c rs (snd (callm junk c n_set_momenta (map GMom [q1; q2; q3; q4]) o))) in
    forall r, fst (callm junk c (fst v) [] o2) = Ok r ->
    exists (x : R) (N : list Z -> C),
      r = Some (RtT (num:=RN st eps) x) /\
      (forall s, In s (configs c (snd v)) -> fst (callm junk c (g_N g) (map GI s) o2) = Ok (Some (RtC (num:=RN st eps) (N s)))) /\
      average c (snd v) <> 0%nat /\
      x = / INR (average c (snd v)) * (gweight g (gden g m q1 q2 q3 q4) * Rsum (fun s => Cmod (N s) ^ 2) (configs c (snd v))).
  Proof.
    intros Hv o m q1 q2 q3 q4 rs HR Hm HOk Hrs o2 r0 Hx. destruct gcheck_c as (HS & _ & HMs).
    pose proof (proj1 (forallb_forall _ _) HS v Hv) as K. clear HS. unfold gsums in K.
    destruct (find_meth c (fst v)) as [f|] eqn:EF; [|exfalso; exact (callm_none junk c (fst v) [] o2 _ EF Hx)].
    apply andb_prop in K as [Ha HS]. apply Bool.negb_true_iff, Nat.eqb_neq in Ha.
    destruct (reached_state junk c o [q1; q2; q3; q4] rs Hc (polar_real st eps) HR eq_refl HOk Hrs)
      as (b & pat & b1 & rT & EB & HI & EA & HMom & _ & HPr & _ & HQ).
    rewrite EB in HS. rewrite forallb_forall in HS. specialize (HS pat HI). rewrite EA in HS.
    set (M := amp_of junk c o2). destruct (HQ M) as (HQ1 & HO1). fold o2 in HO1.
    pose proof (summed_ref junk c pat b1 o2 rT HQ1 HO1 (fst v)) as K. unfold is_gsum in HS.
    destruct (callm junk c (fst v) [] o2) as [r1 o3]. cbn [fst] in Hx. subst r1.
    destruct (summed c pat (fst v) b1) as [|e|p]; [discriminate HS|now destruct K|].
    destruct p as [r b2]. unfold REF in K. destruct r as [[t|y]|]; try discriminate HS. cbn [fst ret_rel] in K.
    destruct r0 as [[x|x]|]; try contradiction K.
    destruct (lin t) as [l|] eqn:EL; [|discriminate HS]. apply andb_prop in HS as [HS HP]. apply andb_prop in HS as [HW HS].
    assert (HV : forall m z y, pinner (Qj pat) c b1 m z = POk y ->
      fst (callm junk c m (map GI z) o2) = Ok (Some (RtC (M m z))) /\ M m z = denC rT M y).
    { intros m' z y E. exact (amp_value junk c pat b1 o2 rT HQ1 HO1 m' z y E). }
    pose proof (key_alike_ok st eps rT M c pat b1 (fun m z y E => proj2 (HV m z y E))) as HKA.
    exists x, (M (g_N g)). split; [reflexivity|]. split; [|split; [exact Ha|]].
    { intros s Hs. pose proof (proj1 (forallb_forall _ _) HP s Hs) as K2. cbv beta in K2.
      destruct (pinner (Qj pat) c b1 (g_N g) s) as [|e|y] eqn:EP; try discriminate K2. exact (proj1 (HV _ _ _ EP)). }
    transitivity (denT rT M t); [exact K|]. rewrite (lin_ok st eps rT M t l EL).
    set (W := denT rT M (weighted g (sden g) (average c (snd v)))).
    rewrite (Rsum_ext _ (fun k => W * (Q2R (fst (1%Q, snd k)) * keyval st eps M (snd (1%Q, snd k))))).
    2:{ intros k Hk. pose proof (proj1 (forallb_forall _ _) HW k Hk) as E. apply eqT_eq in E. rewrite E. fold W. cbn [fst snd].
        rewrite RMicromega.Q2R_1. inR. ring. }
    rewrite Rsum_mult, <- (Rsum_map (fun k : Q * key => Q2R (fst k) * keyval st eps M (snd k)) (fun k : sT * key => (1%Q, snd k))).
    rewrite (rearranged_ok st eps M _ HKA _ _ HS), Rsum_map. cbn [fst snd keyval].
    rewrite (Rsum_ext (fun s => Q2R 1 * Cmod (M (g_N g) s) ^ 2) (fun s => Cmod (M (g_N g) s) ^ 2)).
    2:{ intros s _. rewrite RMicromega.Q2R_1. ring. }
    rewrite <- Rmult_assoc. f_equal.
    (* the weight *)
    apply andb_prop in HMs as [HMs _]. apply andb_prop in HMs as [A1 A2].
    pose proof (agree_ok junk c o _ _ Hc A1 HR) as M1. pose proof (agree_ok junk c o _ _ Hc A2 HR) as M2.
    assert (Hmm : omass o (g_q g) = m).
    { destruct Hm as (P & P1 & P2). unfold omass. rewrite P1. unfold mass in P2. destruct (pa_m P) as [v0|v0]; cbn in P2 |- *; destruct st; congruence. }
    assert (P1 : rT (APm (g_propg g)) = 0).
    { rewrite (proj1 (HPr (g_propg g) (agree_prop c b _ _ EB A1))). exact M1. }
    assert (P2 : rT (APm (g_prop g)) = m).
    { rewrite (proj1 (HPr (g_prop g) (agree_prop c b _ _ EB A2))). etransitivity; [exact M2|exact Hmm]. }
    pose proof (fun k Hk => sden_val rT M q1 q2 q3 q4 m k Hk HMom P1 P2) as HD.
    set (d := gden g m q1 q2 q3 q4) in *.
    assert (HI2 : forall q x y, denT rT M (inv2 q x y) = denD (num:=num) q / ((denT rT M x * denT rT M y) * (denT rT M x * denT rT M y))) by reflexivity.
    assert (EW : W = denT rT M (weight g (sden g)) / INR (average c (snd v))).
    { unfold W, weighted. change (1 * denT rT M (weight g (sden g)) / Q2R (Z.of_nat (average c (snd v)) # 1) = denT rT M (weight g (sden g)) / INR (average c (snd v))).
      rewrite Q2R_int, <- INR_IZR_INZ, Rmult_1_l. reflexivity. }
    rewrite EW. unfold Rdiv. rewrite Rmult_comm. f_equal. clear EW W.
    assert (L36 : denD (num:=num) (DLit 36) = 36) by (exact (Q2R_int 36)).
    assert (L6 : denD (num:=num) (DLit 6) = 6) by (exact (Q2R_int 6)).
    assert (L23 : denD (num:=num) (DOp Div (DLit 2) (DLit 3)) = 2 / 3).
    { change (Q2R (2 # 1) / Q2R (3 # 1) = 2 / 3). rewrite !Q2R_int. reflexivity. }
    assert (HG : (g_G g < 3)%nat /\ (g_A g < 3)%nat /\ (g_B g < 3)%nat).
    { pose proof (proj1 (forallb_forall (fun g => (g_G g <? 3) && (g_A g <? 3) && (g_B g <? 3))%nat gluon_processes) eq_refl g Hg) as K3.
      apply andb_prop in K3 as [K3 K4]. apply andb_prop in K3 as [K2 K3]. apply Nat.ltb_lt in K2, K3, K4. auto. }
    destruct HG as (G1 & G2 & G3).
    unfold weight, gweight. destruct (all_gluons g).
    - change (denT rT M (inv2 (DLit 36) (sden g 0) (sden g 1)) + denT rT M (inv2 (DLit 36) (sden g 0) (sden g 2)) + denT rT M (inv2 (DLit 36) (sden g 1) (sden g 2)) =
        36 / (d 0%nat * d 1%nat) ^ 2 + 36 / (d 0%nat * d 2%nat) ^ 2 + 36 / (d 1%nat * d 2%nat) ^ 2).
      rewrite !HI2, !HD, L36 by lia. cbn [pow]. rewrite !Rmult_1_r. reflexivity.
    - change (denT rT M (inv2 (DLit 6) (sden g (g_G g)) (sden g (g_A g))) + denT rT M (inv2 (DLit 6) (sden g (g_G g)) (sden g (g_B g))) - denT rT M (inv2 (DOp Div (DLit 2) (DLit 3)) (sden g (g_A g)) (sden g (g_B g))) =
        6 / (d (g_G g) * d (g_A g)) ^ 2 + 6 / (d (g_G g) * d (g_B g)) ^ 2 - 2 / 3 / (d (g_A g) * d (g_B g)) ^ 2).
      rewrite !HI2, !HD, L6, L23 by assumption. cbn [pow]. rewrite !Rmult_1_r. reflexivity.
  Qed.
End Gluons.

(** C48: every spin configuration once, with the same weight, whatever the momenta. *)
Theorem C48_gluon_weights :
  forall g c, In g gluon_processes -> In c sm_classes -> c_name c = g_name g ->
  forall v, In v variants ->
  forall st eps (junk : id -> nat -> T (RN st eps)) (o : obj (RN st eps)), reached (num:=RN st eps) junk c o ->
  forall m : R, leg_mass (num:=RN st eps) o (g_q g) m ->
  forall q1 q2 q3 q4 : vec4 R,
    let s := callm (num:=RN st eps) junk c n_set_momenta [GMom (num:=RN st eps) q1; GMom (num:=RN st eps) q2; GMom (num:=RN st eps) q3; GMom (num:=RN st eps) q4] o in
    isOk (fst s) = true ->
  forall rs, forallb reading rs = true ->
    let o2 := snd (orun (num:=RN st eps) junk c rs (snd s)) in
  forall r, fst (callm (num:=RN st eps) junk c (fst v) [] o2) = Ok r ->
  exists (x : R) (N : list Z -> C),
    r = Some (RtT (num:=RN st eps) x) /\
    (forall z, In z (configs c (snd v)) -> fst (callm (num:=RN st eps) junk c (g_N g) (map GI z) o2) = Ok (Some (RtC (num:=RN st eps) (N z)))) /\
    average c (snd v) <> 0%nat /\
    x = / INR (average c (snd v)) * (gweight g (gden g m q1 q2 q3 q4) * Rsum (fun z => Cmod (N z) ^ 2) (configs c (snd v))).
Proof.
  intros g c Hg Hc Hn v Hv st eps junk o HR m Hm q1 q2 q3 q4 s HOk rs Hrs o2 r Hr.
  exact (gsums_ok st eps junk g c Hg Hc Hn v Hv o m q1 q2 q3 q4 rs HR Hm HOk Hrs r Hr).
Qed.
Print Assumptions C48_gluon_weights.

(** The sum over colours gives the weight, if the denominators add up to 0. *)
Lemma colour_sum g c N d s : In g gluon_processes -> In c sm_classes -> c_name c = g_name g ->
  d 0%nat + d 1%nat + d 2%nat = 0 -> d 0%nat <> 0 -> d 1%nat <> 0 -> d 2%nat <> 0 ->
  Rsum (fun col => Cmod (gamplitude g N d s col) ^ 2) (colourings c) = gweight g d * Cmod (N s) ^ 2.
Proof.
  intros Hg Hc Hn HS H0 H1 H2. destruct (gcheck_c g c Hg Hc Hn) as (_ & HC & _). unfold gcolours in HC. unfold gamplitude.
  assert (CM : forall (z : C) (r : R), Cmod (z * RtoC r)%C ^ 2 = Cmod z ^ 2 * (r * r)).
  { intros z r. rewrite !Cmod2. destruct z. cbn. ring. }
  assert (CR : forall (z : C) (r t : R), Re (z * RtoC r * Cconj (z * RtoC t))%C = Cmod z ^ 2 * (r * t)).
  { intros z r t. rewrite Cmod2. destruct z. cbn. ring. }
  unfold gweight. destruct (all_gluons g) eqn:EA.
  - etransitivity; [exact (two_tensors _ _ _ _ _ _ (N s * RtoC (/ (d (g_G g) * d (g_A g))))%C (N s * RtoC (/ (d (g_G g) * d (g_B g))))%C HC)|]. rewrite !CM, CR, !Q2R_int.
    assert (E : d 2%nat = - (d 0%nat + d 1%nat)) by lra.
    assert (EG : g_G g = 2%nat /\ g_A g = 0%nat /\ g_B g = 1%nat).
    { destruct Hg as [<-|[<-|[<-|[<-|[<-|[]]]]]]; try discriminate EA. auto. }
    destruct EG as (-> & -> & ->). rewrite E in *. field. repeat split; auto; intros K; lra.
  - etransitivity; [exact (two_tensors _ _ _ _ _ _ (N s * RtoC (/ (d (g_G g) * d (g_A g))))%C (N s * RtoC (/ (d (g_G g) * d (g_B g))))%C HC)|]. rewrite !CM, CR.
    replace (Q2R (16 # 3)) with (16 / 3) by (unfold Q2R; cbn; lra). replace (Q2R (-2 # 3)) with (- (2 / 3)) by (unfold Q2R; cbn; lra).
    assert (EG : d (g_G g) = - (d (g_A g) + d (g_B g)) /\ d (g_G g) <> 0 /\ d (g_A g) <> 0 /\ d (g_B g) <> 0).
    { destruct Hg as [<-|[<-|[<-|[<-|[<-|[]]]]]]; try discriminate EA; cbn [g_G g_A g_B]; repeat split; auto; lra. }
    destruct EG as (E & E0 & E1 & E2). rewrite E in *. field. repeat split; auto; intros K; lra.
Qed.

(** C48 for these classes: momentum conserved, everything on its mass shell, no denominator 0. *)
Definition on_legs (g : gluons) (c : cls) (m : R) (q1 q2 q3 q4 : vec4 R) : Prop :=
  forall p q, In (p, q) [(0%nat, q1); (1%nat, q2); (2%nat, q3); (3%nat, q4)] ->
    on_shell (match leg c p with Some false => m | _ => 0 end) q.
Lemma mandelstam q1 q2 q3 q4 : vadd q1 q2 = vadd q3 q4 ->
  minksq (vadd q1 q2) + minksq (vsub q1 q3) + minksq (vsub q1 q4) = minksq q1 + minksq q2 + minksq q3 + minksq q4.
Proof.
  destruct q1 as [a0 a1 a2 a3], q2 as [b0 b1 b2 b3], q3 as [c0 c1 c2 c3], q4 as [d0 d1 d2 d3].
  unfold vadd, vsub, minksq. cbn [v_0 v_1 v_2 v_3]. intros [= E0 E1 E2 E3].
  assert (F0 : d0 = a0 + b0 - c0) by lra. assert (F1 : d1 = a1 + b1 - c1) by lra.
  assert (F2 : d2 = a2 + b2 - c2) by lra. assert (F3 : d3 = a3 + b3 - c3) by lra. subst. ring.
Qed.
Lemma gden_sum g c m q1 q2 q3 q4 : In g gluon_processes -> In c sm_classes -> c_name c = g_name g ->
  (all_gluons g = true -> m = 0) -> on_legs g c m q1 q2 q3 q4 -> vadd q1 q2 = vadd q3 q4 ->
  gden g m q1 q2 q3 q4 0 + gden g m q1 q2 q3 q4 1 + gden g m q1 q2 q3 q4 2 = 0.
Proof.
  intros Hg Hc Hn Hm HL HV. pose proof (mandelstam _ _ _ _ HV) as K. unfold on_legs, leg in HL. rewrite Hn in HL.
  pose proof (HL 0%nat q1 ltac:(cbn; auto)) as L1. pose proof (HL 1%nat q2 ltac:(cbn; auto)) as L2.
  pose proof (HL 2%nat q3 ltac:(cbn; auto)) as L3. pose proof (HL 3%nat q4 ltac:(cbn; auto)) as L4. clear HL.
  unfold on_shell in *. unfold gden. cbn [chan].
  destruct Hg as [<-|[<-|[<-|[<-|[<-|[]]]]]]; cbn in L1, L2, L3, L4, Hm |- *; try lra. rewrite (Hm eq_refl) in *. lra.
Qed.
Theorem C48_gluon_sums :
  forall g c, In g gluon_processes -> In c sm_classes -> c_name c = g_name g ->
  forall v, In v variants ->
  forall st eps (junk : id -> nat -> T (RN st eps)) (o : obj (RN st eps)), reached (num:=RN st eps) junk c o ->
  forall m : R, leg_mass (num:=RN st eps) o (g_q g) m ->
  forall q1 q2 q3 q4 : vec4 R,
    on_legs g c m q1 q2 q3 q4 -> vadd q1 q2 = vadd q3 q4 ->
    let d := gden g m q1 q2 q3 q4 in d 0%nat <> 0 -> d 1%nat <> 0 -> d 2%nat <> 0 ->
    let s := callm (num:=RN st eps) junk c n_set_momenta [GMom (num:=RN st eps) q1; GMom (num:=RN st eps) q2; GMom (num:=RN st eps) q3; GMom (num:=RN st eps) q4] o in
    isOk (fst s) = true ->
  forall rs, forallb reading rs = true ->
    let o2 := snd (orun (num:=RN st eps) junk c rs (snd s)) in
  forall r, fst (callm (num:=RN st eps) junk c (fst v) [] o2) = Ok r ->
  exists (x : R) (N : list Z -> C),
    r = Some (RtT (num:=RN st eps) x) /\
    (forall z, In z (configs c (snd v)) -> fst (callm (num:=RN st eps) junk c (g_N g) (map GI z) o2) = Ok (Some (RtC (num:=RN st eps) (N z)))) /\
    x = / INR (average c (snd v)) *
        Rsum (fun z => Rsum (fun col => Cmod (gamplitude g N d z col) ^ 2) (colourings c)) (configs c (snd v)).
Proof.
  intros g c Hg Hc Hn v Hv st eps junk o HR m Hm q1 q2 q3 q4 HL HV d D0 D1 D2 s HOk rs Hrs o2 r Hr.
  destruct (gsums_ok st eps junk g c Hg Hc Hn v Hv o m q1 q2 q3 q4 rs HR Hm HOk Hrs r Hr) as (x & N & E & HN & _ & Ex).
  exists x, N. split; [exact E|]. split; [exact HN|]. rewrite Ex. f_equal. rewrite <- Rsum_mult. apply Rsum_ext. intros z _.
  symmetry. apply colour_sum; auto. apply gden_sum with (c := c); auto.
  intros EA. destruct (gcheck_c g c Hg Hc Hn) as (_ & _ & HMs). unfold gmasses in HMs.
  apply andb_prop in HMs as [HMs HLg].
  assert (EG : g_q g = 0%nat) by (destruct Hg as [<-|[<-|[<-|[<-|[<-|[]]]]]]; try discriminate EA; reflexivity).
  assert (EL : leg c 0 = Some true) by (unfold leg; rewrite Hn; unfold all_gluons in EA; apply String.eqb_eq in EA; rewrite EA; reflexivity).
  pose proof (proj1 (forallb_forall _ _) HLg 0%nat ltac:(cbn; auto)) as A0. cbv beta in A0. rewrite EL in A0.
  pose proof (agree_ok junk c o _ _ Hc A0 HR) as A1. cbn [held] in A1. rewrite EG in Hm.
  destruct Hm as (P & P1 & P2). unfold omass in A1. rewrite P1 in A1. unfold mass in P2.
  destruct (pa_m P) as [v0|v0]; cbn in A1, P2; destruct st; congruence.
Qed.
Print Assumptions C48_gluon_sums.

(** C46: for gggg always, for the others in the same conditions. *)
Theorem C46_gluons_partial :
  forall g c, In g gluon_processes -> In c sm_classes -> c_name c = g_name g ->
  forall v, In v variants ->
  forall st eps (junk : id -> nat -> T (RN st eps)) (o : obj (RN st eps)), reached (num:=RN st eps) junk c o ->
  forall m : R, leg_mass (num:=RN st eps) o (g_q g) m ->
  forall q1 q2 q3 q4 : vec4 R,
    (all_gluons g = false -> on_legs g c m q1 q2 q3 q4 /\ vadd q1 q2 = vadd q3 q4 /\
       gden g m q1 q2 q3 q4 0 <> 0 /\ gden g m q1 q2 q3 q4 1 <> 0 /\ gden g m q1 q2 q3 q4 2 <> 0) ->
    let s := callm (num:=RN st eps) junk c n_set_momenta [GMom (num:=RN st eps) q1; GMom (num:=RN st eps) q2; GMom (num:=RN st eps) q3; GMom (num:=RN st eps) q4] o in
    isOk (fst s) = true ->
  forall rs, forallb reading rs = true ->
    let o2 := snd (orun (num:=RN st eps) junk c rs (snd s)) in
  forall r, fst (callm (num:=RN st eps) junk c (fst v) [] o2) = Ok r ->
  exists x : R, r = Some (RtT (num:=RN st eps) x) /\ 0 <= x.
Proof.
  intros g c Hg Hc Hn v Hv st eps junk o HR m Hm q1 q2 q3 q4 HX s HOk rs Hrs o2 r Hr.
  assert (HI : forall n, 0 <= / INR n).
  { intros [|n]; [cbn [INR]; rewrite Rinv_0; lra|]. apply Rlt_le, Rinv_0_lt_compat, lt_0_INR. lia. }
  destruct (all_gluons g) eqn:EA.
  - destruct (gsums_ok st eps junk g c Hg Hc Hn v Hv o m q1 q2 q3 q4 rs HR Hm HOk Hrs r Hr) as (x & N & E & HN & _ & Ex).
    exists x. split; [exact E|]. rewrite Ex. apply Rmult_le_pos; [apply HI|]. apply Rmult_le_pos.
    + unfold gweight. rewrite EA.
      assert (K : forall y : R, 0 <= 36 / y ^ 2).
      { intros y. destruct (Req_dec y 0) as [->|Hy].
        - unfold Rdiv. rewrite pow_ne_zero, Rinv_0 by lia. lra.
        - apply Rlt_le, Rdiv_lt_0_compat; [lra|]. destruct (Rdichotomy _ _ Hy); nra. }
      pose proof (K (gden g m q1 q2 q3 q4 0 * gden g m q1 q2 q3 q4 1)). pose proof (K (gden g m q1 q2 q3 q4 0 * gden g m q1 q2 q3 q4 2)).
      pose proof (K (gden g m q1 q2 q3 q4 1 * gden g m q1 q2 q3 q4 2)). lra.
    + apply Rsum_nonneg. intros z _. apply pow2_ge_0.
  - destruct (HX eq_refl) as (HL & HV & D0 & D1 & D2).
    destruct (C48_gluon_sums g c Hg Hc Hn v Hv st eps junk o HR m Hm q1 q2 q3 q4 HL HV D0 D1 D2 HOk rs Hrs r Hr) as (x & N & E & _ & Ex).
    exists x. split; [exact E|]. rewrite Ex. apply Rmult_le_pos; [apply HI|].
    apply Rsum_nonneg. intros z _. apply Rsum_nonneg. intros col _. apply pow2_ge_0.
Qed.
Print Assumptions C46_gluons_partial.

(** ** Refutation of C46 for momenta that do not conserve momentum
    ggdd with g = 1 and md = 5, in x87 extended arithmetic: gluons of energy 100 against each
    other, both quarks with momentum 12 along x.  All four are on their mass shells. *)
Definition ex46 : obj XN := snd (fbuild ggdd [1; 5]%Q).
Definition ex46_momenta : list (mom XN) := [zmom 100 100; zmom 100 (-100); xmom 13 12; xmom 13 12]%Z.
Theorem C46_nonnegative_refuted : exists c, In c sm_classes /\ exists o, reached (num:=XN) junk0 c o /\
  exists qs, fst (fmomenta c qs o) = Ok None /\
  exists x, fvalue c n_amp2 (snd (fmomenta c qs o)) = Some x /\ fgt 64 16384 (fz 0) x = true.
Proof.
  exists ggdd. split; [unfold sm_classes; rewrite !in_app_iff; cbn; tauto|].
  exists ex46. split; [apply fbuild_reached; vm_cast_no_check (eq_refl (@Ok unit tt))|].
  exists ex46_momenta. split; [vm_cast_no_check (eq_refl (@Ok (option (ret XN)) None))|].
  assert (H : match fvalue ggdd n_amp2 (snd (fmomenta ggdd ex46_momenta ex46)) with Some x => fgt 64 16384 (fz 0) x | None => false end = true)
    by (vm_cast_no_check (eq_refl true)).
  destruct (fvalue ggdd n_amp2 (snd (fmomenta ggdd ex46_momenta ex46))) as [x|]; [|discriminate H].
  exists x. split; [reflexivity|exact H].
Qed.
Print Assumptions C46_nonnegative_refuted.

(** ** Example: ggdd with real numbers, md = 5, all energies 13 *)
Lemma ggdd_legs : match built true ggdd with
  | POk b => match b_P b with
             | [(Some (TInt 0), _); (Some (TInt 0), _); (Some (TAt (APar 1)), _); (Some (TAt (APar 1)), _)] => true
             | _ => false end
  | _ => false end = true.
Proof. vm_cast_no_check (eq_refl true). Qed.
Definition gl_ggdd : gluons := nth 0 gluon_processes (mkGluons "" n_amp (Tff 0 0 0 0) (Tff 0 0 0 0) 0 0 0 n_prop n_prop 0).
Example C48_gluon_example :
  In gl_ggdd gluon_processes /\ In ggdd sm_classes /\ c_name ggdd = g_name gl_ggdd /\ argless ggdd n_amp2 /\
  average ggdd [] = 256%nat /\ length (configs ggdd []) = 16%nat /\ length (colourings ggdd) = 576%nat /\
  let q1 := V4 13 0 0 13 in let q2 := V4 13 0 0 (-13) in let q3 := V4 13 12 0 0 in let q4 := V4 13 (-12) 0 0 in
  on_legs gl_ggdd ggdd 5 q1 q2 q3 q4 /\ vadd q1 q2 = vadd q3 q4 /\
  map (gden gl_ggdd 5 q1 q2 q3 q4) [0; 1; 2]%nat = [676; -338; -338] /\
  exists o : obj (RN false 0), reached (num:=RN false 0) (fun _ _ => 0) ggdd o /\ leg_mass (num:=RN false 0) o (g_q gl_ggdd) 5 /\
    let s := callm (num:=RN false 0) (fun _ _ => 0) ggdd n_set_momenta [GMom (num:=RN false 0) q1; GMom (num:=RN false 0) q2; GMom (num:=RN false 0) q3; GMom (num:=RN false 0) q4] o in
    isOk (fst s) = true /\ isOk (fst (callm (num:=RN false 0) (fun _ _ => 0) ggdd n_amp2 [] (snd s))) = true.
Proof.
  assert (Hc : In ggdd sm_classes) by (unfold sm_classes; rewrite !in_app_iff; cbn; tauto).
  assert (HA : argless ggdd n_amp2)
    by (exists (match find_meth ggdd n_amp2 with Some f => f | None => mkMeth xH [] SSkip end); split; reflexivity).
  refine (conj (or_introl eq_refl) (conj Hc (conj eq_refl (conj HA (conj eq_refl (conj eq_refl (conj eq_refl _))))))).
  assert (L : on_legs gl_ggdd ggdd 5 (V4 13 0 0 13) (V4 13 0 0 (-13)) (V4 13 12 0 0) (V4 13 (-12) 0 0)).
  { intros p q [[= <- <-]|[[= <- <-]|[[= <- <-]|[[= <- <-]|[]]]]]; unfold on_shell, minksq; cbn; lra. }
  split; [exact L|]. split; [unfold vadd; cbn; f_equal; lra|].
  split; [unfold gden, minksq; cbn; repeat (f_equal; try lra)|].
  pose proof ggdd_legs as EP. destruct (built true ggdd) as [|e|b] eqn:EB; try discriminate EP.
  destruct (new_real 0 (fun _ _ => 0) ggdd [1; 5] b EB eq_refl) as (o & HR & _ & HM).
  repeat match type of EP with context [match ?t with _ => _ end] => destruct t; try discriminate EP end.
  exists o. split; [exact HR|]. split; [exact (HM 2%nat _ _ eq_refl)|].
  assert (A1 : forall p m, In (p, m) [(0%nat, 0); (1%nat, 0); (2%nat, 5); (3%nat, 5)] -> leg ggdd p = Some true -> m = 0).
  { intros p m [[= <- <-]|[[= <- <-]|[[= <- <-]|[[= <- <-]|[]]]]] K; [reflexivity|reflexivity|discriminate K|discriminate K]. }
  assert (A2 : forall p m, In (p, m) [(0%nat, 0); (1%nat, 0); (2%nat, 5); (3%nat, 5)] -> leg ggdd p = Some false -> m <> 0).
  { intros p m [[= <- <-]|[[= <- <-]|[[= <- <-]|[[= <- <-]|[]]]]] K; [discriminate K|discriminate K|lra|lra]. }
  assert (M0 : leg_mass (num:=RN false 0) o 0 0) by exact (HM 0%nat _ _ eq_refl).
  assert (M1 : leg_mass (num:=RN false 0) o 1 0) by exact (HM 1%nat _ _ eq_refl).
  assert (M2 : leg_mass (num:=RN false 0) o 2 5) by exact (HM 2%nat _ _ eq_refl).
  assert (M3 : leg_mass (num:=RN false 0) o 3 5) by exact (HM 3%nat _ _ eq_refl).
  destruct (C45_no_exception_on_shell ggdd Hc false 0 ltac:(lra) (fun _ _ => 0) o HR 0 0 5 5 M0 M1 M2 M3 A1 A2
    (V4 13 0 0 13) (V4 13 0 0 (-13)) (V4 13 12 0 0) (V4 13 (-12) 0 0)
    (L 0%nat _ ltac:(cbn; auto)) (L 1%nat _ ltac:(cbn; auto)) (L 2%nat _ ltac:(cbn; auto)) (L 3%nat _ ltac:(cbn; auto))) as (G & H).
  cbn zeta. split; [rewrite G; reflexivity|].
  destruct (H [] eq_refl n_amp2 HA) as (y & Hy). exact (f_equal isOk Hy).
Qed.
