(** * Properties C12-C16: sproduct *)
From Coq Require Import Reals Lra.
From Coquelicot Require Import Complex.
From Verif Require Import Base Scalar Linear Particle Sproduct ParticleProofs RealNum ParticleReal SpinorReal
  Ready ParticleClaims World SpecSproduct SpecChain WorldProofs SproductClaims ChainReal PropsParticle.

(** ** C12 *)
(** In every arithmetic.  w is any world in which the particles sproduct i points to are
    in use with masses md and momenta qd (nothing is assumed about their history, the
    history of sproduct i or the other objects; one particle may appear several times).
    After update() succeeded, let anything happen that does not change those particles and does not
    assign to sproduct i: accessors, changes to other particles, any calls on any
    sproducts (this one included), new objects.  Then v returns the chain evaluated on
    freshly built particles. *)
Theorem C12_v_equals_definition :
  forall (num : Num) (w w1 : world num) (i : nat) (sp : sproduct num) (aL aR : addr)
         (md : addr -> T num) (qd : addr -> mom num) (gd : addr -> nat -> T num)
         (between : list (wcall num)),
    nth_error (w_sps w) i = Some sp -> sp_L sp = Some aL -> sp_R sp = Some aR ->
    parts_ready md qd (w_heap w) (aL :: aR :: sp_mid sp) ->
    wstep (WUpdate i) w = (Ok RUnit, w1) ->
    forallb (harmless i (aL :: aR :: sp_mid sp)) between = true ->
    let w2 := snd (wrun between w1) in
    let fresh a := snd (particle_new (gd a) (qd a) (md a)) in
    let massless a := teqb (md a) (tZ 0) in
    let C sL sR := omap RVal (chain (sp_angle sp) sL (fresh aL) (map fresh (sp_mid sp)) sR (fresh aR)) in
    (massless aL = true -> massless aR = true -> fst (wstep (WV0 i) w2) = C None None) /\
    (forall s, (s = 1 \/ s = -1)%Z -> massless aL = false -> massless aR = true ->
       fst (wstep (WV1 i s) w2) = C (Some (s, sp_Lupper sp)) None) /\
    (forall s, (s = 1 \/ s = -1)%Z -> massless aL = true -> massless aR = false ->
       fst (wstep (WV1 i s) w2) = C None (Some (s, sp_Rupper sp))) /\
    (forall s t, (s = 1 \/ s = -1)%Z -> (t = 1 \/ t = -1)%Z -> massless aL = false -> massless aR = false ->
       fst (wstep (WV2 i s t) w2) = C (Some (s, sp_Lupper sp)) (Some (t, sp_Rupper sp))).
Proof.
  intros num w w1 i sp aL aR md qd gd between E HL HR HP HU HB.
  set (g0 := fun _ : nat => tZ (n:=num) 0).
  destruct (winv_update g0 md qd (w_heap w) i sp aL aR w w1 eq_refl E HL HR HP HU) as [W1 _].
  apply (winv_values g0 gd md qd (w_heap w) i sp aL aR _ HL HR HP).
  apply winv_run; [exact W1|]. rewrite (sp_addrs_eq sp aL aR HL HR). exact HB.
Qed.
Print Assumptions C12_v_equals_definition.

(** The same directly after construction, as every constructor calls update(). *)
Theorem C12_constructed :
  forall (num : Num) (w w1 : world num) (angle iLU iRU : bool) (aL aR : addr) (mid : list addr)
         (md : addr -> T num) (qd : addr -> mom num) (gd : addr -> nat -> T num)
         (between : list (wcall num)),
    parts_ready md qd (w_heap w) (aL :: aR :: mid) ->
    wstep (WSMake angle aL iLU mid aR iRU) w = (Ok RUnit, w1) ->
    let i := length (w_sps w) in
    forallb (harmless i (aL :: aR :: mid)) between = true ->
    let w2 := snd (wrun between w1) in
    let fresh a := snd (particle_new (gd a) (qd a) (md a)) in
    let massless a := teqb (md a) (tZ 0) in
    let C sL sR := omap RVal (chain angle sL (fresh aL) (map fresh mid) sR (fresh aR)) in
    (massless aL = true -> massless aR = true -> fst (wstep (WV0 i) w2) = C None None) /\
    (forall s, (s = 1 \/ s = -1)%Z -> massless aL = false -> massless aR = true ->
       fst (wstep (WV1 i s) w2) = C (Some (s, iLU)) None) /\
    (forall s, (s = 1 \/ s = -1)%Z -> massless aL = true -> massless aR = false ->
       fst (wstep (WV1 i s) w2) = C None (Some (s, iRU))) /\
    (forall s t, (s = 1 \/ s = -1)%Z -> (t = 1 \/ t = -1)%Z -> massless aL = false -> massless aR = false ->
       fst (wstep (WV2 i s t) w2) = C (Some (s, iLU)) (Some (t, iRU))).
Proof.
  intros num w w1 angle iLU iRU aL aR mid md qd gd between HP HU i HB.
  set (g0 := fun _ : nat => tZ (n:=num) 0).
  destruct (winv_make g0 md qd (w_heap w) angle aL iLU mid aR iRU w w1 eq_refl HP HU) as [W1 _].
  apply (winv_values g0 gd md qd (w_heap w) i
           (mkSproduct (Some aL) (Some aR) mid cmatrix_zero false false angle iLU iRU no_prod) aL aR _
           eq_refl eq_refl HP).
  apply winv_run; [exact W1|exact HB].
Qed.
Print Assumptions C12_constructed.

(** ** C13 *)
(** In every arithmetic, from any state of the world whatsoever: a value once returned by
    v is returned again by the same call as long as nobody updates or reassigns this
    sproduct, whatever else happens. *)
Theorem C13_repetition :
  forall (num : Num) (w w1 : world num) (i : nat) (args : varg) (r : wval num) (between : list (wcall num)),
    wstep (vw i args) w = (Ok r, w1) -> forallb (leaves i) between = true ->
    fst (wstep (vw i args) (snd (wrun between w1))) = Ok r.
Proof. intros num w w1 i args r between. exact (v_again i args w w1 r between). Qed.
Print Assumptions C13_repetition.

(** After update() over particles in use, the outcome (value or exception) of a call with valid spin
    arguments does not depend on what other v calls, updates and accessors came in
    between, nor on calls on other objects. *)
Theorem C13_interleaving :
  forall (num : Num) (w w1 : world num) (i : nat) (sp : sproduct num) (aL aR : addr)
         (md : addr -> T num) (qd : addr -> mom num) (args : varg) (h1 h2 : list (wcall num)),
    nth_error (w_sps w) i = Some sp -> sp_L sp = Some aL -> sp_R sp = Some aR ->
    parts_ready md qd (w_heap w) (aL :: aR :: sp_mid sp) ->
    wstep (WUpdate i) w = (Ok RUnit, w1) ->
    forallb (harmless i (aL :: aR :: sp_mid sp)) h1 = true ->
    forallb (harmless i (aL :: aR :: sp_mid sp)) h2 = true ->
    match args with
    | A0 => True
    | A1 s => (s = 1 \/ s = -1)%Z
    | A2 s t => (s = 1 \/ s = -1)%Z /\ (t = 1 \/ t = -1)%Z
    end ->
    fst (wstep (vw i args) (snd (wrun h1 w1))) = fst (wstep (vw i args) (snd (wrun h2 w1))).
Proof.
  intros num w w1 i sp aL aR md qd args h1 h2 E HL HR HP HU HB1 HB2 HA.
  set (g0 := fun _ : nat => tZ (n:=num) 0).
  destruct (winv_update g0 md qd (w_heap w) i sp aL aR w w1 eq_refl E HL HR HP HU) as [W1 _].
  rewrite <- (sp_addrs_eq sp aL aR HL HR) in HB1, HB2.
  assert (K : forall w2, winv (at_ g0 (w_heap w)) i sp aL aR w2 ->
     fst (wstep (vw i args) w2) = omap RVal
       (match args with
        | A0 => if massive_at (at_ g0 (w_heap w)) aL || massive_at (at_ g0 (w_heap w)) aR
                then Exn ProductUsage else dvalue (at_ g0 (w_heap w)) sp aL aR false false
        | A1 s => if massive_at (at_ g0 (w_heap w)) aL then
                    if massive_at (at_ g0 (w_heap w)) aR then Exn ProductUsage
                    else dvalue (at_ g0 (w_heap w)) sp aL aR (s >? 0)%Z false
                  else if massive_at (at_ g0 (w_heap w)) aR
                       then dvalue (at_ g0 (w_heap w)) sp aL aR false (s >? 0)%Z else Exn ProductUsage
        | A2 s t => if massive_at (at_ g0 (w_heap w)) aL && massive_at (at_ g0 (w_heap w)) aR
                    then dvalue (at_ g0 (w_heap w)) sp aL aR (s >? 0)%Z (t >? 0)%Z else Exn ProductUsage
        end)).
  { intros w2 [(sp' & E' & S' & I') HK]. rewrite <- (sp_addrs_static sp sp' S') in HK.
    rewrite vw_step, (on_sp_fst (vcall args) RVal i w2 sp' E'). f_equal.
    destruct args as [|s|s t]; cbn [vcall].
    - destruct (v0_eval _ (w_heap w2) sp' aL aR I' HK) as (h' & s' & _ & _ & _ & ->). cbn [fst].
      rewrite (dvalue_static _ sp sp' aL aR _ _ S'). reflexivity.
    - destruct (v1_eval _ s (w_heap w2) sp' aL aR I' HK) as (h' & s' & _ & _ & _ & ->). cbn [fst].
      unfold spin_res. rewrite (proj2 (spinb_true s) HA), !(dvalue_static _ sp sp' aL aR _ _ S'). reflexivity.
    - destruct HA as [Hs Ht].
      destruct (v2_eval _ s t (w_heap w2) sp' aL aR I' HK) as (h' & s' & _ & _ & _ & ->). cbn [fst].
      unfold spin_res. rewrite (proj2 (spinb_true s) Hs), (proj2 (spinb_true t) Ht). cbn [andb].
      rewrite !(dvalue_static _ sp sp' aL aR _ _ S'). reflexivity. }
  rewrite !K; [reflexivity|apply winv_run; assumption..].
Qed.
Print Assumptions C13_interleaving.

(** ** C15 *)
(** In every arithmetic. *)
Theorem C15_usage_errors :
  forall (num : Num) (w : world num) (i : nat) (sp : sproduct num) (aL aR : addr)
         (md : addr -> T num) (qd : addr -> mom num),
    nth_error (w_sps w) i = Some sp -> sp_L sp = Some aL -> sp_R sp = Some aR ->
    parts_ready md qd (w_heap w) (aL :: aR :: sp_mid sp) ->
    let massless a := teqb (md a) (tZ 0) in
    (* update() throws exactly for a lower index on a massless end *)
    ((exists e, fst (wstep (WUpdate i) w) = Exn e) <->
       (massless aL = true /\ sp_Lupper sp = false) \/ (massless aR = true /\ sp_Rupper sp = false)) /\
    (forall w1, wstep (WUpdate i) w = (Ok RUnit, w1) ->
      (if massless aL && massless aR then exists x, fst (wstep (WV0 i) w1) = Ok (RVal x)
       else fst (wstep (WV0 i) w1) = Exn ProductUsage) /\
      (forall s, if Bool.eqb (massless aL) (massless aR) then fst (wstep (WV1 i s) w1) = Exn ProductUsage
         else if (s =? 1)%Z || (s =? -1)%Z then exists x, fst (wstep (WV1 i s) w1) = Ok (RVal x)
         else fst (wstep (WV1 i s) w1) = Exn BadSpin) /\
      (forall s t, if massless aL || massless aR then fst (wstep (WV2 i s t) w1) = Exn ProductUsage
         else if ((s =? 1)%Z || (s =? -1)%Z) && ((t =? 1)%Z || (t =? -1)%Z)
              then exists x, fst (wstep (WV2 i s t) w1) = Ok (RVal x)
         else fst (wstep (WV2 i s t) w1) = Exn BadSpin)).
Proof.
  intros num w i sp aL aR md qd E HL HR HP massless.
  set (g0 := fun _ : nat => tZ (n:=num) 0). split.
  - rewrite (update_outcome g0 (fun _ => g0) md qd (w_heap w) i sp aL aR w eq_refl E HL HR HP).
    fold (massless aL). fold (massless aR).
    destruct (massless aL), (sp_Lupper sp), (massless aR), (sp_Rupper sp); cbn [negb andb];
      (split; [|intros [[? ?]|[? ?]]; try discriminate; eauto]); try tauto;
      intros (e & He); exfalso; revert He;
      match goal with |- context [chain_mats ?a ?l] =>
        pose proof (chain_mats_never_throws l a e); destruct (chain_mats a l); cbn; congruence end.
  - intros w1 HU.
    destruct (winv_update g0 md qd (w_heap w) i sp aL aR w w1 eq_refl E HL HR HP HU)
      as [[_ HK] (sp' & E' & S' & I' & NP)].
    destruct (winv_usage g0 md qd (w_heap w) i sp aL aR w1 sp' HL HR HP E' S' I' HK) as (U0 & U1 & U2).
    fold (massless aL) in U0, U1, U2. fold (massless aR) in U0, U1, U2.
    split; [|split].
    + destruct (massless aL && massless aR); exact U0.
    + intros s. specialize (U1 s). unfold spinb in U1.
      destruct (Bool.eqb (massless aL) (massless aR)), ((s =? 1)%Z || (s =? -1)%Z); auto.
    + intros s t. specialize (U2 s t). unfold spinb in U2.
      destruct (massless aL || massless aR), (((s =? 1)%Z || (s =? -1)%Z) && ((t =? 1)%Z || (t =? -1)%Z)); auto.
Qed.
Print Assumptions C15_usage_errors.

Open Scope R_scope.
(** Over the reals update() does nothing else than succeed or throw as above. *)
Theorem C15_update_succeeds :
  forall st eps (w : world (RN st eps)) (i : nat) (sp : sproduct (RN st eps)) (aL aR : addr)
         (md : addr -> R) (qd : addr -> vec4 R),
    nth_error (w_sps w) i = Some sp -> sp_L sp = Some aL -> sp_R sp = Some aR ->
    parts_ready (num:=RN st eps) md qd (w_heap w) (aL :: aR :: sp_mid sp) ->
    fst (wstep (WUpdate i) w) = Ok RUnit <->
      ~ ((md aL = 0 /\ sp_Lupper sp = false) \/ (md aR = 0 /\ sp_Rupper sp = false)).
Proof.
  intros st eps w i sp aL aR md qd E HL HR HP.
  set (g0 := fun _ : nat => 0).
  rewrite (update_outcome (num:=RN st eps) g0 (fun _ => g0) md qd (w_heap w) i sp aL aR w eq_refl E HL HR HP).
  assert (HM : exists qs, Forall2 (carries st eps)
     (map (fun a => snd (particle_new (num:=RN st eps) g0 (qd a) (md a))) (sp_mid sp)) qs).
  { assert (K : forall a, In a (sp_mid sp) -> carries st eps (snd (particle_new (num:=RN st eps) g0 (qd a) (md a))) (qd a)).
    { intros a Ha. destruct (HP a) as (P & _ & P0 & P1 & h & H1 & H2 & _); [right; right; exact Ha|].
      exists (md a). destruct (set_momentum_like_fresh (num:=RN st eps) g0 (qd a) (md a) P0 H1) as [F _].
      rewrite H2 in F. cbn [fst] in F.
      destruct (particle_new (num:=RN st eps) g0 (qd a) (md a)) as [r Q] eqn:EQ. cbn [fst snd] in *. subst r.
      exact (ready_new _ _ _ _ EQ). }
    exists (map qd (sp_mid sp)). revert K. generalize (sp_mid sp). induction l as [|a l IH]; intros K; constructor.
    - apply K. left; reflexivity.
    - apply IH. intros b Hb. apply K. right; exact Hb. }
  destruct HM as (qs & HM). rewrite (mats_eval st eps _ _ HM).
  change (teqb (n:=RN st eps)) with Reqb. change (tZ (n:=RN st eps) 0) with 0.
  destruct (Reqb (md aL) 0) eqn:EL, (Reqb (md aR) 0) eqn:ER, (sp_Lupper sp), (sp_Rupper sp);
    first [apply Reqb_true in EL | apply Reqb_false in EL];
    first [apply Reqb_true in ER | apply Reqb_false in ER];
    cbn [andb negb omap obind]; split; try discriminate; try reflexivity;
    try (intros _ [[? ?]|[? ?]]; congruence); intros N; exfalso; apply N; tauto.
Qed.
Print Assumptions C15_update_succeeds.

(** ** Examples for C12, C13, C15: a world with a massive and two massless particles, a
    product <1|23|2] built over them with 1 massive... *)
Definition ql : vec4 R := V4 1 0 0 (-1).
Section Ex.
  Variables (st : bool) (eps : R).
  Hypothesis Heps : 0 <= eps.
  Notation num := (RN st eps).
  Lemma ql_shell : on_shell 0 ql.
  Proof. unfold on_shell, minksq; simpl; lra. Qed.

  (** particles 12-massive, z and -z moving massless, in this order *)
  Definition ex_m (a : addr) : R := match a with O => 12 | _ => 0 end.
  Definition ex_q (a : addr) : vec4 R := match a with O => q13 | S O => qz | _ => ql end.
  Lemma ex_heap : exists P0 P1 P2 : particle num,
    parts_ready (num:=num) ex_m ex_q [P0; P1; P2] [0%nat; 1%nat; 2%nat].
  Proof.
    destruct (new_on_shell st eps (fun _ => 0) 12 q13 Heps q13_shell) as (P0 & _ & R0).
    destruct (new_on_shell st eps (fun _ => 0) 0 qz Heps qz_shell) as (P1 & _ & R1).
    destruct (new_on_shell st eps (fun _ => 0) 0 ql Heps ql_shell) as (P2 & _ & R2).
    exists P0, P1, P2. intros a [<-|[<-|[<-|[]]]]; [exists P0|exists P1|exists P2]; split; try reflexivity; assumption.
  Qed.
  Definition ex_sp (angle : bool) (aL aR : addr) (mid : list addr) : sproduct num :=
    mkSproduct (Some aL) (Some aR) mid cmatrix_zero false false angle true true no_prod.
  Lemma ex_update angle aL aR mid sps h : parts_ready (num:=num) ex_m ex_q h (aL :: aR :: mid) ->
    exists w1, wstep (WUpdate 0) (mkWorld h (ex_sp angle aL aR mid :: sps)) = (Ok RUnit, w1).
  Proof.
    intros HP.
    pose proof (C15_update_succeeds st eps (mkWorld h (ex_sp angle aL aR mid :: sps)) 0 (ex_sp angle aL aR mid)
                 aL aR ex_m ex_q eq_refl eq_refl eq_refl HP) as [_ K].
    destruct (wstep _ _) as [r w1]. exists w1. cbn [fst] in K. rewrite K; [reflexivity|].
    cbn. intros [[_ F]|[_ F]]; discriminate.
  Qed.
End Ex.
Example C12_C13_C15_example : forall st eps, 0 <= eps ->
  exists (w w1 : world (RN st eps)) (sp : sproduct (RN st eps)),
    nth_error (w_sps w) 0 = Some sp /\ sp_L sp = Some 0%nat /\ sp_R sp = Some 1%nat /\ sp_mid sp = [2%nat; 0%nat] /\
    parts_ready (num:=RN st eps) ex_m ex_q (w_heap w) [0%nat; 1%nat; 2%nat; 0%nat] /\
    wstep (WUpdate 0) w = (Ok RUnit, w1) /\
    forallb (harmless 0 [0%nat; 1%nat; 2%nat; 0%nat])
      [WV1 0 1%Z; WPart 2%nat (CSpinor0 RSquare); WMom (num:=RN st eps) (fun _ => 0) q13 12;
       WPart 3%nat (CSetMass (num:=RN st eps) 7);
       WSMake true 2%nat true [] 0%nat true; WV1 1 5%Z; WV1 0 (-1)%Z; WUpdate 0] = true.
Proof.
  intros st eps He. destruct (ex_heap st eps He) as (P0 & P1 & P2 & HP).
  assert (HP' : parts_ready (num:=RN st eps) ex_m ex_q [P0; P1; P2] [0%nat; 1%nat; 2%nat; 0%nat]).
  { intros a Ha. apply HP. simpl in *. tauto. }
  destruct (ex_update st eps true 0%nat 1%nat [2%nat; 0%nat] [] [P0; P1; P2] HP') as (w1 & H1).
  exists (mkWorld [P0; P1; P2] [ex_sp st eps true 0%nat 1%nat [2%nat; 0%nat]]), w1, (ex_sp st eps true 0%nat 1%nat [2%nat; 0%nat]).
  repeat split; try reflexivity; assumption.
Qed.

(** ** C14 *)
(** False: <12> of two massless particles keeps its old value when the momentum of 2
    changes.  In w particle 1 is in use with momentum q1 and particle 2 with q2, and
    sproduct 0 is <12>.  After update() and v(), which returns x, particle 2 successfully
    gets momentum q2'; the next v() returns x again without complaint, although the
    product on particles with momenta q1 and q2' is y <> x. *)
Theorem C14_stale_product_refuted :
  forall st eps, 0 <= eps ->
  exists (w : world (RN st eps)) (x y : C) (q1 q2 q2' : vec4 R),
    nth_error (w_sps w) 0 = Some (ex_sp st eps true 1%nat 2%nat []) /\
    parts_ready (num:=RN st eps) (fun _ => 0) (fun a => if (a =? 1)%nat then q1 else q2) (w_heap w) [1%nat; 2%nat] /\
    fst (wrun [WUpdate 0; WV0 0; WPart 2%nat (CSetMomentum (num:=RN st eps) q2'); WV0 0] w) =
      [Ok (RUnit (num:=RN st eps)); Ok (RVal (num:=RN st eps) x); Ok (RPart (VUnit (num:=RN st eps))); Ok (RVal (num:=RN st eps) x)] /\
    (forall P1 P2' : particle (RN st eps), ready (num:=RN st eps) 0 q1 P1 -> ready (num:=RN st eps) 0 q2' P2' ->
       chain true None P1 [] None P2' = Ok y) /\
    y <> x.
Proof.
  intros st eps He. destruct (ex_heap st eps He) as (P0 & P1 & P2 & HP).
  assert (HP' : parts_ready (num:=RN st eps) ex_m ex_q [P0; P1; P2] [1%nat; 2%nat]).
  { intros a Ha. apply HP. simpl in *. tauto. }
  set (w0 := mkWorld [P0; P1; P2] [ex_sp st eps true 1%nat 2%nat []]).
  destruct (ex_update st eps true 1%nat 2%nat [] [] [P0; P1; P2] HP') as (wa & HU). fold w0 in HU.
  set (g0 := fun _ : nat => 0).
  destruct (winv_update (num:=RN st eps) g0 ex_m ex_q (w_heap w0) 0 (ex_sp st eps true 1%nat 2%nat []) 1%nat 2%nat w0 wa
              eq_refl eq_refl eq_refl eq_refl HP' HU) as [WA _].
  destruct (winv_values (num:=RN st eps) g0 (fun _ => g0) ex_m ex_q (w_heap w0) 0 (ex_sp st eps true 1%nat 2%nat []) 1%nat 2%nat wa
              eq_refl eq_refl HP' WA) as (V0 & _).
  assert (Z : teqb (n:=RN st eps) 0 (tZ 0) = true) by apply Reqb_refl.
  specialize (V0 Z Z). cbn [sp_angle sp_mid ex_sp map] in V0.
  destruct (new_on_shell st eps g0 0 qz He qz_shell) as (F1 & N1 & R1).
  destruct (new_on_shell st eps g0 0 ql He ql_shell) as (F2 & N2 & R2).
  cbn [ex_q ex_m] in V0. rewrite N1, N2 in V0. cbn [snd] in V0.
  rewrite (chain_eval st eps true None 0 qz F1 [] [] None 0 ql F2 R1 (Forall2_nil _) R2 eq_refl eq_refl) in V0.
  cbn [omap obind] in V0.
  set (x := rchain st eps true None qz [] None ql) in *.
  destruct (wstep (WV0 0) wa) as [r wb] eqn:HV. cbn [fst] in V0. subst r.
  assert (WB : winv (at_ (num:=RN st eps) g0 (w_heap w0)) 0 (ex_sp st eps true 1%nat 2%nat []) 1%nat 2%nat wb).
  { replace wb with (snd (wstep (WV0 0) wa)) by (rewrite HV; reflexivity).
    apply winv_step; [exact WA|reflexivity]. }
  destruct WB as [_ KB].
  destruct (KB 2%nat) as (Q2 & EQ2 & CQ2 & UQ2); [right; left; reflexivity|].
  destruct (HP' 2%nat) as (P2' & EP2 & RP2); [right; left; reflexivity|]. injection EP2 as <-.
  change (at_ (num:=RN st eps) g0 (w_heap w0) 2%nat) with P2 in UQ2.
  assert (MQ2 : rd (pa_m Q2) = Ok 0).
  { pose proof (ready_pa_m _ _ _ RP2) as M2.
    assert (pa_m Q2 = pa_m P2) as ->.
    { change (pa_m (uncached Q2) = pa_m (uncached P2)). rewrite UQ2. reflexivity. }
    exact M2. }
  destruct (set_momentum_real st eps qz 0 Q2 MQ2) as [(F & _)|(_ & Q2' & HS & _)].
  { exfalso. unfold minksq, qz in F. cbn [v_0 v_1 v_2 v_3] in F. revert F.
    match goal with |- Rabs ?a > _ -> _ => replace a with 0 by ring end. rewrite Rabs_R0. lra. }
  set (wc := mkWorld (hset (w_heap wb) 2%nat Q2') (w_sps wb)).
  assert (HC : wstep (WPart 2%nat (CSetMomentum (num:=RN st eps) qz)) wb = (Ok (RPart (VUnit (num:=RN st eps))), wc)).
  { cbn [wstep]. rewrite EQ2. cbn [pstep]. unfold smap, sbind. rewrite HS. reflexivity. }
  pose proof (v_again (num:=RN st eps) 0 A0 wa wb (RVal (num:=RN st eps) x) [WPart 2%nat (CSetMomentum (num:=RN st eps) qz)] HV eq_refl) as AG.
  cbn [wrun] in AG. rewrite HC in AG. cbn [snd vw] in AG.
  destruct (wstep (WV0 0) wc) as [r wd] eqn:HD. cbn [fst] in AG. subst r.
  exists w0, x, (rchain st eps true None qz [] None qz), qz, ql, qz.
  split; [reflexivity|]. split; [|split; [|split]].
  - intros a [<-|[<-|[]]]; [exact (HP' 1%nat (or_introl eq_refl))|exact (HP' 2%nat (or_intror (or_introl eq_refl)))].
  - cbn [wrun]. rewrite HU, HV, HC, HD. reflexivity.
  - intros Q1 Q RQ1 RQ.
    exact (chain_eval st eps true None 0 qz Q1 [] [] None 0 qz Q RQ1 (Forall2_nil _) RQ eq_refl eq_refl).
  - (* <11> = 0 but |<12>|^2 = 2 p1.p2 = 4 *)
    intros EQ.
    pose proof (square_sum st eps true 0 qz true 0 ql true qz_shell ltac:(simpl; lra) ql_shell ltac:(simpl; lra)) as SQ.
    pose proof (square_sum st eps true 0 qz true 0 qz true qz_shell ltac:(simpl; lra) qz_shell ltac:(simpl; lra)) as SQ'.
    unfold rsum in SQ, SQ'. rewrite Reqb_refl in SQ, SQ'. fold x in SQ. rewrite EQ in SQ'. rewrite SQ' in SQ.
    unfold minkdot, RtoC in SQ. injection SQ as SQ. simpl in SQ. lra.
Qed.
Print Assumptions C14_stale_product_refuted.

(** ** C16 *)
(** False: once v(1) has been computed, v(5) returns its value. *)
Theorem C16_spin_validation_refuted :
  forall st eps, 0 <= eps ->
  exists (w : world (RN st eps)) (x : C),
    fst (wrun [WUpdate 0; WV1 0 5%Z; WV1 0 1%Z; WV1 0 5%Z] w) =
      [Ok (RUnit (num:=RN st eps)); Exn BadSpin; Ok (RVal (num:=RN st eps) x); Ok (RVal (num:=RN st eps) x)].
Proof.
  intros st eps He. destruct (ex_heap st eps He) as (P0 & P1 & P2 & HP).
  assert (HP' : parts_ready (num:=RN st eps) ex_m ex_q [P0; P1; P2] [0%nat; 1%nat]).
  { intros a Ha. apply HP. simpl in *. tauto. }
  set (w0 := mkWorld [P0; P1; P2] [ex_sp st eps true 0%nat 1%nat []]).
  destruct (ex_update st eps true 0%nat 1%nat [] [] [P0; P1; P2] HP') as (wa & HU). fold w0 in HU.
  set (g0 := fun _ : nat => 0).
  destruct (winv_update (num:=RN st eps) g0 ex_m ex_q (w_heap w0) 0 (ex_sp st eps true 0%nat 1%nat []) 0%nat 1%nat w0 wa
              eq_refl eq_refl eq_refl eq_refl HP' HU) as [WA (s1 & E1 & S1 & I1 & NP1)].
  pose proof WA as [_ KA].
  destruct (winv_usage (num:=RN st eps) g0 ex_m ex_q (w_heap w0) 0 (ex_sp st eps true 0%nat 1%nat []) 0%nat 1%nat wa s1
              eq_refl eq_refl HP' E1 S1 I1 KA) as (_ & U & _).
  assert (Z12 : teqb (n:=RN st eps) (ex_m 0%nat) (tZ 0) = false).
  { apply Reqb_false. simpl. lra. }
  assert (Z0 : teqb (n:=RN st eps) (ex_m 1%nat) (tZ 0) = true) by apply Reqb_refl.
  rewrite Z12, Z0 in U. cbn [Bool.eqb] in U.
  pose proof (U 5%Z NP1 : fst (wstep (WV1 0 5%Z) wa) = Exn BadSpin) as U5.
  destruct (wstep (WV1 0 5%Z) wa) as [r wb] eqn:EB. cbn [fst] in U5. subst r.
  assert (WB : winv (at_ (num:=RN st eps) g0 (w_heap w0)) 0 (ex_sp st eps true 0%nat 1%nat []) 0%nat 1%nat wb).
  { replace wb with (snd (wstep (WV1 0 5%Z) wa)) by (rewrite EB; reflexivity).
    apply winv_step; [exact WA|reflexivity]. }
  pose proof WB as [(s2 & E2 & S2 & I2) KB].
  destruct (winv_usage (num:=RN st eps) g0 ex_m ex_q (w_heap w0) 0 (ex_sp st eps true 0%nat 1%nat []) 0%nat 1%nat wb s2
              eq_refl eq_refl HP' E2 S2 I2 KB) as (_ & U2 & _).
  rewrite Z12, Z0 in U2. cbn [Bool.eqb] in U2. specialize (U2 1%Z). cbn [spinb Z.eqb Pos.eqb orb] in U2.
  destruct U2 as (x & U2). destruct (wstep (WV1 0 1%Z) wb) as [r wc] eqn:EC. cbn [fst] in U2. subst r.
  exists w0, x. cbn [wrun]. rewrite HU. cbn [wstep] in *. rewrite EB, EC.
  (* the third v(5): the key is (5 > 0, false) = (1 > 0, false), now cached *)
  assert (EDD : fst (smap (RVal (num:=RN st eps)) (on_sp 0 (v1 5)) wc) = Ok (RVal (num:=RN st eps) x)).
  { revert EC. unfold smap, sbind, on_sp. rewrite E2.
    destruct (v1 1 (w_heap wb, s2)) as [[z|e|u] [h1 s3]] eqn:EV; try discriminate. intros [= <- <-].
    cbn [w_sps w_heap]. rewrite (lset_same _ _ _ _ E2).
    assert (FL : sp_Lmassive s2 = true).
    { rewrite (inv_Lm _ _ _ _ I2). rewrite (ready_massive (num:=RN st eps) g0 ex_m ex_q (w_heap w0) _ 0%nat HP' (or_introl eq_refl)), Z12. reflexivity. }
    assert (FR : sp_Rmassive s2 = false).
    { rewrite (inv_Rm _ _ _ _ I2). rewrite (ready_massive (num:=RN st eps) g0 ex_m ex_q (w_heap w0) _ 1%nat HP' (or_intror (or_introl eq_refl))), Z0. reflexivity. }
    unfold v1 in EV. unfold sbind at 1, sgets in EV. cbn [snd] in EV. rewrite FL, FR in EV.
    pose proof (memo_ext (1 >? 0)%Z false _ (w_heap wb) s2
                  (keeps_compute (num:=RN st eps) (fun d => spinor2 d 1 (sp_Lupper s2)) spinor0)) as X.
    rewrite EV in X. cbn [snd] in X. destruct X as (X1 & X2 & _).
    pose proof (memo_again _ _ _ _ _ _ _ _ (keeps_compute (num:=RN st eps) (fun d => spinor2 d 1 (sp_Lupper s2)) spinor0) EV) as C3.
    unfold v1, sbind, sgets. cbn [snd]. rewrite X1, X2, FL, FR.
    unfold v_memo, sbind, sgets. cbn [snd]. change (5 >? 0)%Z with true. change (1 >? 0)%Z with true in C3.
    rewrite C3. reflexivity. }
  destruct (smap RVal (on_sp 0 (v1 5)) wc) as [r wd]. cbn [fst] in EDD. subst r. reflexivity.
Qed.
Print Assumptions C16_spin_validation_refuted.
(** What does hold: validation right after update(), C15_usage_errors. *)
