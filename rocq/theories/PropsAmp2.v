(** * Spin and colour sums: C48, and with them C46 *)
From Coq Require Import Reals QArith Qreals String Ascii FinFun Lra Lia.
From Coquelicot Require Import Complex.
From Verif Require Import Base Scalar RealNum Linear Integers Particle Sproduct Propagator Process
  ParticleReal ParticleProofs Ready ParticleClaims SpecSproduct WorldProofs Lang LangFrame Pure PureProofs ReadOnly Sym SymEq SMNames
  SMRun SMTwins SMMasses SM05 SM06 SMAll SMChecks SMState PropsClasses PropsConstruct SMAmp2 SpinColour.
Close Scope Q_scope.
Close Scope R_scope.
Open Scope st_scope.
Open Scope nat_scope.

(** amp2 and its variants for photons and gluons of given helicity *)
Definition variants : list (id * list Z) :=
  [(n_amp2, []); (n_amp2_Aplus, [2]); (n_amp2_Aminus, [-2]); (n_amp2_Aplus_Aplus, [2; 2]); (n_amp2_Aplus_Aminus, [2; -2]);
   (n_amp2_gplus, [2]); (n_amp2_gminus, [-2]); (n_amp2_gplus_Aplus, [2; 2]); (n_amp2_gplus_Aminus, [2; -2]);
   (n_amp2_gplus_gplus, [2; 2]); (n_amp2_gplus_gminus, [2; -2]); (n_amp2_gminus_gplus, [-2; 2]);
   (n_amp2_gminus_gminus, [-2; -2])]%Z.
(** The classes with two or more gluons and quarks or gluons, whose amplitudes have their
    denominators in the colour weights (PropsGluons.v), and eeAZ, see below. *)
Definition special (c : cls) : bool := existsb (String.eqb (c_name c)) ["dggd"; "ggdd"; "gggg"; "gguu"; "gugu"; "eeAZ"]%string.

(** ** The check *)
Definition alike (c : cls) (pat : nat -> bool) (b1 : pobj snum) (m : id) (z : list Z) (m' : id) (z' : list Z) : bool :=
  if (if Pos.eqb m m' then zs_eqb z z' else false) then true
  else match pinner (Qj pat) c b1 m z, pinner (Qj pat) c b1 m' z' with POk y, POk y' => eqC y y' | _, _ => false end.
Definition key_alike (c : cls) (pat : nat -> bool) (b1 : pobj snum) (k k' : key) : bool :=
  match k, k' with
  | KAbs m z, KAbs m' z' => alike c pat b1 m z m' z'
  | KRe m z n w, KRe m' z' n' w' =>
      if (if alike c pat b1 m z m' z' then alike c pat b1 n w n' w' else false) then true
      else if alike c pat b1 m z n' w' then alike c pat b1 n w m' z' else false
  | _, _ => false
  end.
Definition expected (q : Q) (ss : list (list Z)) (f : list (Q * (list Z -> key))) : list (Q * key) :=
  flat_map (fun s => map (fun e => ((fst e * q)%Q, snd e s)) f) ss.
Definition is_sum (c : cls) (pat : nat -> bool) (b1 : pobj snum) (m : id) (n : nat) (ss : list (list Z)) : bool :=
  match summed c pat m b1 with
  | PExn _ => true
  | POk (Some (RtT t), _) =>
      match lin t, form (colourings c) (structures c) with
      | Some l, Some f =>
          match consts l with
          | Some l' => rearranged (key_alike c pat b1) l' (expected (1 # Pos.of_nat n) ss f) &&
              forallb (fun s => forallb (fun mt => isPOk (pinner (Qj pat) c b1 (fst mt) s)) (structures c)) ss
          | None => false
          end
      | _, _ => false
      end
  | _ => false
  end.
Definition sums (c : cls) (m : id) (n : nat) (ss : list (list Z)) : bool :=
  match find_meth c m with
  | None => true
  | Some _ =>
    negb (Nat.eqb n 0) &&
    match shape c with
    | POk b => forallb (fun pat => match after c (dyn_mask c) b pat with POk (None, b1) => is_sum c pat b1 m n ss | _ => false end) all_pats
    | _ => false
    end
  end.
Lemma sm_sums : forallb (fun c => if special c then true
  else forallb (fun v => sums c (fst v) (average c (snd v)) (configs c (snd v))) variants) sm_classes = true.
Proof. vm_cast_no_check (eq_refl true). Qed.

(** ** Its soundness *)
Lemma callm_none {num} (junk : id -> nat -> T num) c m args o r : find_meth c m = None -> fst (callm junk c m args o) <> Ok r.
Proof.
  intros E. unfold callm. change (run junk c 2 m) with (fun args =>
    match find_meth c m with Some f => invoke junk (run junk c 1) f args | None => slift (UB TypeMismatch) end).
  cbn beta. rewrite E. discriminate.
Qed.
Open Scope R_scope.
Lemma expected_val st eps M q f : forall ss,
  Rsum (fun k : Q * key => Q2R (fst k) * keyval st eps M (snd k)) (expected q ss f) =
  Q2R q * Rsum (fun s => Rsum (fun e : Q * (list Z -> key) => Q2R (fst e) * keyval st eps M (snd e s)) f) ss.
Proof.
  intros ss. unfold expected. rewrite Rsum_flat, <- Rsum_mult. apply Rsum_ext. intros s _. rewrite Rsum_map, <- Rsum_mult.
  apply Rsum_ext. intros e _. cbn [fst snd]. rewrite Q2R_mult. ring.
Qed.
Lemma key_alike_ok st eps rT (M : id -> list Z -> CX (RN st eps)) c pat b1 :
  (forall m z y, pinner (Qj pat) c b1 m z = POk y -> M m z = denC rT M y) ->
  forall k k', key_alike c pat b1 k k' = true -> keyval st eps M k = keyval st eps M k'.
Proof.
  intros HV.
    assert (HAl : forall m z m' z', alike c pat b1 m z m' z' = true -> M m z = M m' z').
    { intros m1 z1 m2 z2. unfold alike. destruct (if Pos.eqb m1 m2 then zs_eqb z1 z2 else false) eqn:E.
      - intros _. destruct (Pos.eqb m1 m2) eqn:E1; [|discriminate E]. apply Pos.eqb_eq in E1. apply zs_eqb_eq in E. subst. reflexivity.
      - destruct (pinner (Qj pat) c b1 m1 z1) as [|e1|y1] eqn:P1; try discriminate.
        destruct (pinner (Qj pat) c b1 m2 z2) as [|e2|y2] eqn:P2; try discriminate.
        intros Hy. apply eqC_eq in Hy. subst y2. rewrite (HV _ _ _ P1), (HV _ _ _ P2). reflexivity. }
    intros [m1 z1|m1 z1 n1 w1] [m2 z2|m2 z2 n2 w2]; cbn [key_alike]; try discriminate.
      - intros H. cbn [keyval]. rewrite (HAl _ _ _ _ H). reflexivity.
      - destruct (if alike c pat b1 m1 z1 m2 z2 then alike c pat b1 n1 w1 n2 w2 else false) eqn:E.
        + intros _. destruct (alike c pat b1 m1 z1 m2 z2) eqn:E1; [|discriminate E]. cbn [keyval].
          rewrite (HAl _ _ _ _ E1), (HAl _ _ _ _ E). reflexivity.
        + destruct (alike c pat b1 m1 z1 n2 w2) eqn:E1; [|discriminate]. intros E2. cbn [keyval].
          rewrite (HAl _ _ _ _ E1), (HAl _ _ _ _ E2).
          destruct (M n2 w2) as [a1 a2], (M m2 z2) as [d1 d2]. cbn. ring.
Qed.
Section Sound.
  Variables (st : bool) (eps : R).
  Notation num := (RN st eps).
  Variable junk : id -> nat -> T num.
  Variable c : cls.
  Variable Hc : In c sm_classes.
  Lemma sums_ok m n ss : sums c m n ss = true ->
    forall o q rs, reached junk c o -> length q = 4%nat ->
    isOk (fst (callm junk c n_set_momenta (map GMom q) o)) = true -> forallb reading rs = true ->
    let o2 := snd (orun junk c rs (snd (callm junk c n_set_momenta (map GMom q) o))) in
    forall r, fst (callm junk c m [] o2) = Ok r ->
    exists (x : R) (M : id -> list Z -> C),
      r = Some (RtT (num:=RN st eps) x) /\
      (forall mt s, In mt (structures c) -> In s ss ->
         fst (callm junk c (fst mt) (map GI s) o2) = Ok (Some (RtC (num:=RN st eps) (M (fst mt) s)))) /\
      x = / INR n * Rsum (fun s => Rsum (fun col => Cmod (amplitude c M s col) ^ 2) (colourings c)) ss.
  Proof.
    intros HS o q rs HR HL HOk Hrs o2 r0 Hx. unfold sums in HS.
    destruct (find_meth c m) as [f|] eqn:EF; [|exfalso; exact (callm_none junk c m [] o2 _ EF Hx)].
    apply andb_prop in HS as [Hn HS]. apply Bool.negb_true_iff, Nat.eqb_neq in Hn.
    destruct (reached_state junk c o q rs Hc (polar_real st eps) HR HL HOk Hrs) as (b & pat & b1 & rT & EB & HI & EA & _ & _ & _ & _ & HQ).
    rewrite EB in HS. rewrite forallb_forall in HS. specialize (HS pat HI). rewrite EA in HS.
    set (M := amp_of junk c o2). destruct (HQ M) as (HQ1 & HO1). fold o2 in HO1.
    pose proof (summed_ref junk c pat b1 o2 rT HQ1 HO1 m) as K. unfold is_sum in HS.
    destruct (callm junk c m [] o2) as [r1 o3]. cbn [fst] in Hx. subst r1.
    destruct (summed c pat m b1) as [|e|p]; [discriminate HS|now destruct K|].
    destruct p as [r b2]. unfold REF in K. destruct r as [[t|y]|]; try discriminate HS. cbn [fst ret_rel] in K.
    destruct r0 as [[x|x]|]; try contradiction K.
    destruct (lin t) as [l|] eqn:EL; [|discriminate HS]. destruct (form _ _) as [fm|] eqn:EFM; [|discriminate HS].
    destruct (consts l) as [l'|] eqn:EC; [|discriminate HS]. apply andb_prop in HS as [HS HP].
    assert (HV : forall m z y, pinner (Qj pat) c b1 m z = POk y ->
      fst (callm junk c m (map GI z) o2) = Ok (Some (RtC (M m z))) /\ M m z = denC rT M y).
    { intros m' z y E. exact (amp_value junk c pat b1 o2 rT HQ1 HO1 m' z y E). }
    pose proof (key_alike_ok st eps rT M c pat b1 (fun m z y E => proj2 (HV m z y E))) as HKA.
    exists x, M. split; [reflexivity|]. split.
    { intros mt s Hmt Hs. rewrite forallb_forall in HP. specialize (HP s Hs). rewrite forallb_forall in HP. specialize (HP mt Hmt).
      destruct (pinner (Qj pat) c b1 (fst mt) s) as [|e|y] eqn:EP; try discriminate HP. exact (proj1 (HV _ _ _ EP)). }
    transitivity (denT rT M t); [exact K|].
    rewrite (lin_ok st eps rT M t l EL), (consts_ok st eps rT M l l' EC).
    rewrite (rearranged_ok st eps M _ HKA _ _ HS), expected_val.
    f_equal.
    - unfold Q2R. cbn [Qnum Qden]. rewrite INR_IZR_INZ, Rmult_1_l. f_equal. f_equal. rewrite <- positive_nat_Z, Nat2Pos.id by exact Hn. reflexivity.
    - apply Rsum_ext. intros s _. symmetry. exact (form_ok st eps M s (colourings c) (structures c) fm EFM).
  Qed.
End Sound.

(** ** The theorems *)
(** C48: whatever the history of the object, if amp2 (or its variant for the given
    helicities of the initial photons and gluons) returns, then all the amplitudes return,
    and the result is the sum of the squared amplitudes over all spin and colour
    configurations, each once, divided by the number of initial ones and by 2 for
    identical final particles. *)
Theorem C48_spin_sums :
  forall c, In c sm_classes -> special c = false ->
  forall v, In v variants ->
  forall st eps (junk : id -> nat -> T (RN st eps)) (o : obj (RN st eps)), reached (num:=RN st eps) junk c o ->
  forall q1 q2 q3 q4 : vec4 R,
    let g := callm (num:=RN st eps) junk c n_set_momenta [GMom (num:=RN st eps) q1; GMom (num:=RN st eps) q2; GMom (num:=RN st eps) q3; GMom (num:=RN st eps) q4] o in
    isOk (fst g) = true ->
  forall rs, forallb reading rs = true ->
    let o2 := snd (orun (num:=RN st eps) junk c rs (snd g)) in
  forall r, fst (callm (num:=RN st eps) junk c (fst v) [] o2) = Ok r ->
  exists (x : R) (M : id -> list Z -> C),
    r = Some (RtT (num:=RN st eps) x) /\
    (forall mt s, In mt (structures c) -> In s (configs c (snd v)) ->
       fst (callm (num:=RN st eps) junk c (fst mt) (map GI s) o2) = Ok (Some (RtC (num:=RN st eps) (M (fst mt) s)))) /\
    x = / INR (average c (snd v)) *
        Rsum (fun s => Rsum (fun col => Cmod (amplitude c M s col) ^ 2) (colourings c)) (configs c (snd v)).
Proof.
  intros c Hc Hs v Hv st eps junk o HR q1 q2 q3 q4 g HOk rs Hrs o2 r Hr.
  pose proof (proj1 (forallb_forall _ _) sm_sums c Hc) as K. cbv beta in K. rewrite Hs in K.
  pose proof (proj1 (forallb_forall _ _) K v Hv) as K2. cbv beta in K2.
  exact (sums_ok st eps junk c Hc _ _ _ K2 o [q1; q2; q3; q4] rs HR eq_refl HOk Hrs r Hr).
Qed.
Print Assumptions C48_spin_sums.

(** With on-shell momenta of masses as the class wants them, amp2 does return (C45), so the
    sum is its value. *)
Theorem C48_spin_sums_on_shell :
  forall c, In c sm_classes -> special c = false ->
  forall v, In v variants -> argless c (fst v) ->
  forall st eps, (0 <= eps)%R ->
  forall (junk : id -> nat -> T (RN st eps)) (o : obj (RN st eps)), reached (num:=RN st eps) junk c o ->
  forall m1 m2 m3 m4 : R,
    leg_mass (num:=RN st eps) o 0 m1 -> leg_mass (num:=RN st eps) o 1 m2 -> leg_mass (num:=RN st eps) o 2 m3 -> leg_mass (num:=RN st eps) o 3 m4 ->
    (forall p m, In (p, m) [(0%nat, m1); (1%nat, m2); (2%nat, m3); (3%nat, m4)] -> leg c p = Some true -> m = 0%R) ->
    (forall p m, In (p, m) [(0%nat, m1); (1%nat, m2); (2%nat, m3); (3%nat, m4)] -> leg c p = Some false -> m <> 0%R) ->
  forall q1 q2 q3 q4 : vec4 R,
    on_shell m1 q1 -> on_shell m2 q2 -> on_shell m3 q3 -> on_shell m4 q4 ->
    let g := callm (num:=RN st eps) junk c n_set_momenta [GMom (num:=RN st eps) q1; GMom (num:=RN st eps) q2; GMom (num:=RN st eps) q3; GMom (num:=RN st eps) q4] o in
  forall rs, forallb reading rs = true ->
    let o2 := snd (orun (num:=RN st eps) junk c rs (snd g)) in
  exists M : id -> list Z -> C,
    (forall mt s, In mt (structures c) -> In s (configs c (snd v)) ->
       fst (callm (num:=RN st eps) junk c (fst mt) (map GI s) o2) = Ok (Some (RtC (num:=RN st eps) (M (fst mt) s)))) /\
    fst (callm (num:=RN st eps) junk c (fst v) [] o2) = Ok (Some (RtT (num:=RN st eps)
      (/ INR (average c (snd v)) *
       Rsum (fun s => Rsum (fun col => Cmod (amplitude c M s col) ^ 2) (colourings c)) (configs c (snd v))))).
Proof.
  intros c Hc Hs v Hv HA st eps He junk o HR m1 m2 m3 m4 L1 L2 L3 L4 HZ HN q1 q2 q3 q4 S1 S2 S3 S4 g rs Hrs o2.
  destruct (C45_no_exception_on_shell c Hc st eps He junk o HR m1 m2 m3 m4 L1 L2 L3 L4 HZ HN q1 q2 q3 q4 S1 S2 S3 S4) as (G & H).
  destruct (H rs Hrs (fst v) HA) as (y & Hy).
  destruct (C48_spin_sums c Hc Hs v Hv st eps junk o HR q1 q2 q3 q4 (f_equal isOk G) rs Hrs _ Hy) as (x & M & E & HM & Ex).
  exists M. split; [exact HM|]. rewrite <- Ex, <- E. exact Hy.
Qed.
Print Assumptions C48_spin_sums_on_shell.

(** The lists summed over have no repetitions; how many configurations there are. *)
Fixpoint distinctb {A} (eqb : A -> A -> bool) (l : list A) : bool :=
  match l with [] => true | x :: l' => negb (existsb (eqb x) l') && distinctb eqb l' end.
Lemma distinctb_NoDup {A} (eqb : A -> A -> bool) : (forall x, eqb x x = true) -> forall l, distinctb eqb l = true -> NoDup l.
Proof.
  intros H. induction l as [|x l IH]; cbn [distinctb]; intros E; constructor; apply andb_prop in E as [E1 E2].
  - intros HI. apply Bool.negb_true_iff in E1. assert (K : existsb (eqb x) l = true) by (apply existsb_exists; eauto). congruence.
  - auto.
Qed.
Lemma zs_eqb_refl l : zs_eqb l l = true.
Proof. induction l; cbn; [reflexivity|]. rewrite Z.eqb_refl. exact IHl. Qed.
Lemma sm_configs : forallb (fun c => forallb (fun v => distinctb zs_eqb (configs c (snd v))) variants) sm_classes = true.
Proof. vm_cast_no_check (eq_refl true). Qed.
Lemma cart_NoDup {A} : forall ll : list (list A), (forall l, In l ll -> NoDup l) -> NoDup (cart ll).
Proof.
  induction ll as [|l ll IH]; cbn [cart]; intros H; [repeat constructor; intros []|].
  assert (Hl : NoDup l) by (apply H; left; reflexivity).
  assert (Hll : NoDup (cart ll)) by (apply IH; intros l' Hl'; apply H; right; exact Hl').
  clear H IH. induction Hl as [|x l Hx Hl IH]; cbn [flat_map]; [constructor|].
  assert (D : forall (u v : list (list A)), NoDup u -> NoDup v -> (forall y, In y u -> ~ In y v) -> NoDup (u ++ v)).
  { induction u as [|y u IHu]; cbn; intros v Hu Hv HD; [exact Hv|]. inversion Hu; subst. constructor.
    - rewrite in_app_iff. intros [K|K]; [contradiction|]. exact (HD y (or_introl eq_refl) K).
    - apply IHu; auto. }
  apply D; auto.
  - apply FinFun.Injective_map_NoDup; [|exact Hll]. intros a b [= ->]. reflexivity.
  - intros y Hy K. apply in_map_iff in Hy as (z & <- & _). apply in_flat_map in K as (x' & Hx' & K).
    apply in_map_iff in K as (z' & [= -> _] & _). contradiction.
Qed.
Theorem C48_each_once :
  forall c, In c sm_classes -> forall v, In v variants ->
  NoDup (configs c (snd v)) /\ NoDup (colourings c).
Proof.
  intros c Hc v Hv. split.
  - pose proof (proj1 (forallb_forall _ _) sm_configs c Hc) as K. cbv beta in K.
    exact (distinctb_NoDup zs_eqb zs_eqb_refl _ (proj1 (forallb_forall _ _) K v Hv)).
  - apply cart_NoDup. intros l Hl. apply in_map_iff in Hl as (a & <- & _). apply seq_NoDup.
Qed.
Print Assumptions C48_each_once.

(** ** eeAZ
    The amplitude of eeAZ is not written yet (SM/eeAZ.cpp 107-154, all of it in comments
    but the return of 0 at the end): amp and amp2 are 0, so that C48 holds of it, though amp2
    also sums over a photon helicity 0 that there is not. *)
Definition vanishes (c : cls) (b1 : pobj snum) (pat : nat -> bool) : bool :=
  forallb (fun s => match pinner (Qj pat) c b1 n_amp s with POk (CMk (TInt 0) (TInt 0)) => true | _ => false end)
    (cart [[-1; 1]; [-1; 1]; [-2; 0; 2]; [-2; 0; 2]]%Z).
Lemma eeAZ_sums : sums eeAZ n_amp2 4 (cart [[-1; 1]; [-1; 1]; [-2; 0; 2]; [-2; 0; 2]]%Z) = true /\
  match shape eeAZ with
  | POk b => forallb (fun pat => match after eeAZ (dyn_mask eeAZ) b pat with POk (None, b1) => vanishes eeAZ b1 pat | _ => false end) all_pats
  | _ => false
  end = true.
Proof. split; vm_cast_no_check (eq_refl true). Qed.
Theorem C48_eeAZ :
  forall st eps (junk : id -> nat -> T (RN st eps)) (o : obj (RN st eps)), reached (num:=RN st eps) junk eeAZ o ->
  forall q1 q2 q3 q4 : vec4 R,
    let g := callm (num:=RN st eps) junk eeAZ n_set_momenta [GMom (num:=RN st eps) q1; GMom (num:=RN st eps) q2; GMom (num:=RN st eps) q3; GMom (num:=RN st eps) q4] o in
    isOk (fst g) = true ->
  forall rs, forallb reading rs = true ->
    let o2 := snd (orun (num:=RN st eps) junk eeAZ rs (snd g)) in
  (forall s, In s (configs eeAZ []) -> fst (callm (num:=RN st eps) junk eeAZ n_amp (map GI s) o2) = Ok (Some (RtC (num:=RN st eps) (RtoC 0)))) /\
  forall r, fst (callm (num:=RN st eps) junk eeAZ n_amp2 [] o2) = Ok r -> r = Some (RtT (num:=RN st eps) 0).
Proof.
  intros st eps junk o HR q1 q2 q3 q4 g HOk rs Hrs o2.
  assert (Hc : In eeAZ sm_classes) by (unfold sm_classes; rewrite !in_app_iff; cbn; tauto).
  destruct eeAZ_sums as (K1 & K2). set (ss := cart _) in K1.
  assert (HZ : forall s, In s ss -> fst (callm (num:=RN st eps) junk eeAZ n_amp (map GI s) o2) = Ok (Some (RtC (num:=RN st eps) (RtoC 0)))).
  { destruct (reached_state junk eeAZ o [q1; q2; q3; q4] rs Hc (polar_real st eps) HR eq_refl HOk Hrs) as (b & pat & b1 & rT & EB & HI & EA & _ & _ & _ & _ & HQ).
    rewrite EB in K2. pose proof (proj1 (forallb_forall _ _) K2 pat HI) as K. cbv beta in K. rewrite EA in K.
    destruct (HQ (amp_of junk eeAZ o2)) as (HQ1 & HO1).
    intros s Hs. pose proof (proj1 (forallb_forall _ _) K s Hs) as K'. cbv beta in K'.
    destruct (pinner (Qj pat) eeAZ b1 n_amp s) as [|e|y] eqn:EP; try discriminate K'.
    destruct (amp_value junk eeAZ pat b1 o2 rT HQ1 HO1 n_amp s y EP) as (V & W). rewrite V, W.
    repeat match type of K' with context [match ?t with _ => _ end] => is_var t; destruct t; try discriminate K' end. reflexivity. }
  split.
  { intros s Hs. apply HZ. revert s Hs. assert (K : forallb (fun s => existsb (zs_eqb s) ss) (configs eeAZ []) = true) by reflexivity.
    intros s Hs. pose proof (proj1 (forallb_forall _ _) K s Hs) as K'. apply existsb_exists in K' as (s' & H & E).
    apply zs_eqb_eq in E. subst s'. exact H. }
  intros r Hr. destruct (sums_ok st eps junk eeAZ Hc _ _ _ K1 o [q1; q2; q3; q4] rs HR eq_refl HOk Hrs r Hr) as (x & M & -> & HM & Ex).
  f_equal. f_equal. rewrite Ex. rewrite (Rsum_ext _ (fun _ => 0)), Rsum_zero, Rmult_0_r; [reflexivity|].
  intros s Hs. specialize (HM (n_amp, Tsinglet) s (or_introl eq_refl) Hs). cbn [fst] in HM.
  pose proof (eq_trans (eq_sym (HZ s Hs)) HM) as HM2. injection HM2 as HM0.
  assert (EM : M n_amp s = RtoC 0) by (symmetry; exact HM0).
  change (colourings eeAZ) with [[0; 0; 0; 0]%nat].
  cbn [Rsum]. change (amplitude eeAZ M s [0; 0; 0; 0]%nat) with (RtoC 1 * M n_amp s + RtoC 0)%C.
  rewrite EM, Cmult_0_r, Cplus_0_r, Cmod_0. ring.
Qed.
Print Assumptions C48_eeAZ.

(** ** C46 *)
Theorem C46_nonnegative_partial :
  forall c, In c sm_classes -> special c = false ->
  forall v, In v variants ->
  forall st eps (junk : id -> nat -> T (RN st eps)) (o : obj (RN st eps)), reached (num:=RN st eps) junk c o ->
  forall q1 q2 q3 q4 : vec4 R,
    let g := callm (num:=RN st eps) junk c n_set_momenta [GMom (num:=RN st eps) q1; GMom (num:=RN st eps) q2; GMom (num:=RN st eps) q3; GMom (num:=RN st eps) q4] o in
    isOk (fst g) = true ->
  forall rs, forallb reading rs = true ->
    let o2 := snd (orun (num:=RN st eps) junk c rs (snd g)) in
  forall r, fst (callm (num:=RN st eps) junk c (fst v) [] o2) = Ok r ->
  exists x : R, r = Some (RtT (num:=RN st eps) x) /\ 0 <= x.
Proof.
  intros c Hc Hs v Hv st eps junk o HR q1 q2 q3 q4 g HOk rs Hrs o2 r Hr.
  destruct (C48_spin_sums c Hc Hs v Hv st eps junk o HR q1 q2 q3 q4 HOk rs Hrs r Hr) as (x & M & -> & _ & ->).
  eexists. split; [reflexivity|]. apply Rmult_le_pos.
  - destruct (average c (snd v)) as [|n]; [cbn [INR]; rewrite Rinv_0; lra|].
    apply Rlt_le, Rinv_0_lt_compat, lt_0_INR. lia.
  - apply Rsum_nonneg. intros s _. apply Rsum_nonneg. intros col _. apply pow2_ge_0.
Qed.
Print Assumptions C46_nonnegative_partial.

(** ** Example: eemm with masses 12 and 5 and energies 13, over the reals *)
Lemma new_real eps (junk : id -> nat -> T (RN false eps)) c params b : built true c = POk b -> length params = length (c_params c) ->
  exists o, reached (num:=RN false eps) junk c o /\ construct (num:=RN false eps) junk c params = (Ok tt, o) /\
    forall p y q, nth_error (b_P b) p = Some (Some y, q) -> leg_mass o p (denT (rT0 junk params) rC0 y).
Proof.
  intros EB HL. destruct (construct_built (num:=RN false eps) junk c true params b (fun _ => eq_refl) HL EB) as (o & E & D & HO).
  exists o. split; [apply (reached_new junk c params o E)|]. split; [exact E|]. intros p y q Ey.
  destruct (or_M _ _ _ _ _ _ _ HO p y q Ey) as (P & m & A1 & A2 & A3). exists P. split; [exact A1|].
  unfold mass. rewrite A2, <- A3. reflexivity.
Qed.
Lemma eemm_legs : match built true eemm with
  | POk b => match b_P b with
             | [(Some (TAt (APar 1)), _); (Some (TAt (APar 1)), _); (Some (TAt (APar 2)), _); (Some (TAt (APar 2)), _)] => true
             | _ => false end
  | _ => false end = true.
Proof. vm_cast_no_check (eq_refl true). Qed.
Definition ex48_params : list R := [1; 12; 5; 20; 1; 80; 3 / 5; 2].
Example C48_example :
  In eemm sm_classes /\ special eemm = false /\ In (n_amp2, []) variants /\ argless eemm n_amp2 /\
  length (configs eemm []) = 16%nat /\ average eemm [] = 4%nat /\
  exists o : obj (RN false 0), reached (num:=RN false 0) (fun _ _ => 0) eemm o /\
    let g := callm (num:=RN false 0) (fun _ _ => 0) eemm n_set_momenta
      [GMom (num:=RN false 0) (V4 13 0 0 5); GMom (num:=RN false 0) (V4 13 0 0 (-5)); GMom (num:=RN false 0) (V4 13 0 0 12); GMom (num:=RN false 0) (V4 13 0 0 (-12))] o in
    isOk (fst g) = true /\
    exists x, fst (callm (num:=RN false 0) (fun _ _ => 0) eemm n_amp2 [] (snd g)) = Ok (Some (RtT (num:=RN false 0) x)) /\ 0 <= x.
Proof.
  assert (Hc : In eemm sm_classes) by (unfold sm_classes; rewrite !in_app_iff; cbn; tauto).
  assert (HA : argless eemm n_amp2)
    by (exists (match find_meth eemm n_amp2 with Some f => f | None => mkMeth xH [] SSkip end); split; reflexivity).
  refine (conj Hc (conj eq_refl (conj (or_introl eq_refl) (conj HA (conj eq_refl (conj eq_refl _)))))).
  pose proof eemm_legs as EP. destruct (built true eemm) as [|e|b] eqn:EB; try discriminate EP.
  destruct (new_real 0 (fun _ _ => 0) eemm ex48_params b EB eq_refl) as (o & HR & _ & HM).
  repeat match type of EP with context [match ?t with _ => _ end] => destruct t; try discriminate EP end.
  exists o. split; [exact HR|].
  assert (S5 : on_shell 12 (V4 13 0 0 5)) by (unfold on_shell, minksq; cbn; lra).
  assert (S5' : on_shell 12 (V4 13 0 0 (-5))) by (unfold on_shell, minksq; cbn; lra).
  assert (S12 : on_shell 5 (V4 13 0 0 12)) by (unfold on_shell, minksq; cbn; lra).
  assert (S12' : on_shell 5 (V4 13 0 0 (-12))) by (unfold on_shell, minksq; cbn; lra).
  destruct (C45_no_exception_on_shell eemm Hc false 0 ltac:(lra) (fun _ _ => 0) o HR 12 12 5 5
    (HM 0%nat _ _ eq_refl) (HM 1%nat _ _ eq_refl) (HM 2%nat _ _ eq_refl) (HM 3%nat _ _ eq_refl)
    ltac:(intros p m [[= <- <-]|[[= <- <-]|[[= <- <-]|[[= <- <-]|[]]]]]; discriminate)
    ltac:(intros p m [[= <- <-]|[[= <- <-]|[[= <- <-]|[[= <- <-]|[]]]]] _; lra)
    _ _ _ _ S5 S5' S12 S12') as (G & H).
  cbn zeta. split; [rewrite G; reflexivity|].
  destruct (H [] eq_refl n_amp2 HA) as (y & Hy).
  destruct (C46_nonnegative_partial eemm Hc eq_refl (n_amp2, []) (or_introl eq_refl) false 0 (fun _ _ => 0) o HR _ _ _ _
    (f_equal isOk G) [] eq_refl _ Hy) as (x & Ex & Hx).
  exists x. split; [|exact Hx]. rewrite <- Ex. exact Hy.
Qed.
