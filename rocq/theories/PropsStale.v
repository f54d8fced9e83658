(** * C44 for the ten classes of [stale]: exactly what a new construction has and set_masses lacks *)
From Coq Require Import Reals QArith Qreals String Lra Lia.
From Verif Require Import Base Scalar RealNum ParticleReal Linear Integers Particle Sproduct Propagator Process
  ParticleProofs Ready ParticleClaims SpecSproduct WorldProofs Lang LangFrame Pure PureProofs ReadOnly Sym SMNames
  SMRun SMTwins SMMasses SMAll SMChecks SMRebuild IEEE SMFloat PropsClasses PropsRebuild SM03 SM09.
From Flocq Require Import BinarySingleNaN.
Close Scope Q_scope.
Close Scope R_scope.
Open Scope st_scope.

(** prope is built with mass 0, but set_masses gives it masse (SM/nnWW.cpp:32,56, SM/nWWn.cpp:32,56) *)
Definition late_electron : list string := ["nWWn"; "nnWW"]%string.
(** massW, or what comes of it, is not stored (the other eight) *)
Definition keeps_W (c : cls) : bool := named stale c && negb (named late_electron c).

(** what was given to the constructor, and to set_masses, under a name *)
Definition built_with {A} (c : cls) (params : list A) (x : id) : option A :=
  match index x (c_params c) with Some k => nth_error params k | None => None end.
Definition set_to {A} (c : cls) (masses : list A) (x : id) : option A :=
  match index x (sm_params c) with Some k => nth_error masses k | None => None end.

(** ** The terms, with the mass that set_masses treats differently put in *)
Definition unify (c : cls) (a : tatom) : sT :=
  match a with
  | APar k =>
    if keeps_W c then
      match index n_massW (sm_params c), index n_massW (c_params c) with
      | Some j, Some i => if (k =? off + j)%nat then TAt (APar i) else TAt a
      | _, _ => TAt a
      end
    else
      match index n_masse (sm_params c) with
      | Some j => if (k =? off + j)%nat then TInt 0 else TAt a
      | None => TAt a
      end
  | _ => TAt a
  end.
Definition same_term_u (c : cls) (b : pobj snum) (yn y2 : sT) : bool :=
  based c b y2 && parsok c yn &&
  teq (norm (sub (unify c) (sub (as_new c) yn))) (norm (sub (unify c) (sub (as_old b) y2))).
Definition same_unified (c : cls) : bool :=
  (length (c_params c) <? off)%nat &&
  match shape c with
  | POk b =>
    match setm c b with
    | POk b2 =>
      forallb (fun x => negb (known (dyn_mask c) b x) ||
         match b_T b x, b_T b2 x with Some y, Some y2 => same_term_u c b y y2 | _, _ => false end) (members c) &&
      forallb (fun r => match b_R b r, b_R b2 r with
                        | Some y, Some y2 => same_term_u c b (pr_m y) (pr_m y2) && same_term_u c b (pr_w y) (pr_w y2)
                        | _, _ => false end) (props c) &&
      forallb (fun p => match nth_error (b_P b) p, nth_error (b_P b2) p with
                        | Some (Some y, _), Some (Some y2, _) => same_term_u c b y y2
                        | _, _ => false end) (seq 0 4)
    | _ => false
    end
  | _ => false
  end.
Lemma sm_unified : forallb (fun c => negb (named stale c) || same_unified c) sm_classes = true.
Proof. vm_cast_no_check (eq_refl true). Qed.

(** the mass in question: massW as before, or masse zero *)
Definition agreeing {num : Num} (c : cls) (params masses : list (T num)) : Prop :=
  if keeps_W c then set_to c masses n_massW = built_with c params n_massW
  else set_to c masses n_masse = Some (tZ (n:=num) 0).

Section Unified.
  Context {num : Num}.
  Variable c : cls.
  Variable b b2 : pobj snum.
  Variable junk : id -> nat -> T num.
  Variable params a : list (T num).
  Variable oc o o1 o2 : obj num.
  Notation k := (mass_mask c).
  Notation d := (dyn_mask c).
  Notation vC := (fun (_ : id) (_ : list Z) => c0 (num:=num)).
  Hypothesis HB : shape c = POk b.
  Hypothesis HM : has_masses b = true.
  Hypothesis HB2 : setm c b = POk b2.
  Hypothesis HSig : sm_sig c = true.
  Hypothesis HOff : (length (c_params c) < off)%nat.
  Hypothesis EC : construct junk c params = (Ok tt, oc).
  Hypothesis HL : like k oc o.
  Variable r : option (ret num).
  Hypothesis E1 : callm junk c n_set_masses (map GT a) o = (Ok r, o1).
  Hypothesis E2 : construct junk c (rebuilt c params a) = (Ok tt, o2).

  Hypothesis HA : agreeing c params a.
  Notation rTT := (rTT junk params a).

  Lemma unify_atom t : denT rTT vC (unify c t) = rTT t.
  Proof.
    pose proof HA as H. unfold agreeing in H. destruct t; try reflexivity. unfold unify. destruct (keeps_W c).
    - unfold set_to, built_with in H. destruct (index n_massW (sm_params c)) as [j|] eqn:Ej; [|reflexivity].
      destruct (index n_massW (c_params c)) as [i|] eqn:Ei; [|reflexivity].
      destruct (k =? off + j)%nat eqn:Ek; [|reflexivity]. apply Nat.eqb_eq in Ek. subst k.
      assert (Li : (i < length (c_params c))%nat) by exact (index_lt c HOff _ _ _ Ei). cbn [denT]. unfold SMRebuild.rTT.
      assert (E1' : (i <? off)%nat = true) by (apply Nat.ltb_lt; lia).
      assert (E2' : (off + j <? off)%nat = false) by (apply Nat.ltb_ge; lia). rewrite E1', E2'.
      replace (off + j - off)%nat with j by lia.
      destruct (nth_error params i) as [v|] eqn:Ev.
      + rewrite (nth_error_nth _ _ _ Ev), (nth_error_nth _ _ _ H). reflexivity.
      + apply nth_error_None in Ev. apply nth_error_None in H. rewrite !nth_overflow by assumption. reflexivity.
    - unfold set_to in H. destruct (index n_masse (sm_params c)) as [j|] eqn:Ej; [|reflexivity].
      destruct (k =? off + j)%nat eqn:Ek; [|reflexivity]. apply Nat.eqb_eq in Ek. subst k.
      cbn [denT]. unfold SMRebuild.rTT.
      assert (E2' : (off + j <? off)%nat = false) by (apply Nat.ltb_ge; lia). rewrite E2'.
      replace (off + j - off)%nat with j by lia. rewrite (nth_error_nth _ _ _ H). reflexivity.
  Qed.
  Lemma den_unify : forall y, denT rTT vC (sub (unify c) y) = denT rTT vC y.
  Proof. induction y; cbn [sub denT]; rewrite ?IHy, ?IHy1, ?IHy2; try reflexivity. apply unify_atom. Qed.
  Lemma unified_den yn y2 : literals num -> same_term_u c b yn y2 = true ->
    denT (rT0 junk (rebuilt c params a)) rC0 yn = denT (at_masses oc o a) vC y2.
  Proof.
    intros H4 H. apply andb_prop in H as [H HE]. apply andb_prop in H as [Ho Hn].
    rewrite (den_new c junk params a oc o o1 HSig HOff EC r E1 _ Hn), (den_old c b junk params a oc o HB HOff EC HL _ Ho).
    rewrite <- (den_unify (sub (as_new c) yn)), <- (den_unify (sub (as_old b) y2)).
    apply teq_eq in HE. rewrite <- (norm_den _ _ H4), HE. apply norm_den, H4.
  Qed.

  Theorem unified_twin : literals num -> same_unified c = true -> method_ok c k n_set_masses = true ->
    twin d b o1 o2.
  Proof.
    intros H4 HSame HMs. unfold same_unified in HSame. rewrite HB, HB2 in HSame.
    apply andb_prop in HSame as [_ HSame]. apply andb_prop in HSame as [HSame HC3]. apply andb_prop in HSame as [HC1 HC2].
    rewrite forallb_forall in HC1, HC2, HC3.
    pose proof (construct_shaped junk c params oc b EC HB HM) as HS.
    pose proof (construct_shaped junk c _ o2 b E2 HB HM) as S2.
    assert (HK : forall x, known k b x = true -> exists v, o_T oc x = Val v).
    { intros x Hx. exact (construct_known junk c k params oc b x EC HB Hx). }
    pose proof (after_setm c b junk oc o a r o1 b2 HSig HB2 HS HK HL E1) as (D1 & R1).
    pose proof (construct_shape junk c _ o2 b E2 HB) as (D2 & R2).
    assert (S1 : shaped b o1).
    { pose proof (method_quiet junk c k n_set_masses (map GT a) HMs o) as K. rewrite E1 in K.
      exact (shaped_like k b o o1 (shaped_like k b oc o HS HL) K). }
    assert (VT : forall x, known d b x = true -> exists v, o_T o1 x = Val v /\ o_T o2 x = Val v).
    { intros x Hx. specialize (HC1 x (known_member c b x Hx)). rewrite Hx in HC1. cbn [negb orb] in HC1.
      destruct (b_T b x) as [y|] eqn:Ey; [|discriminate HC1]. destruct (b_T b2 x) as [y2|] eqn:Ey2; [|discriminate HC1].
      destruct (or_T _ _ _ _ _ _ _ R1 x y2 Ey2) as (v1 & V1 & W1). destruct (or_T _ _ _ _ _ _ _ R2 x y Ey) as (v2 & V2 & W2).
      exists v1. split; [exact V1|]. rewrite V2. f_equal. unfold RTs in W1, W2. rewrite W1, W2.
      exact (unified_den _ _ H4 HC1). }
    split; [exact S1|]. split; [exact S2|].
    exists o1, (fun x => cval (o_T o1 x)), (o_R o1). intros q.
    split; [apply agrees_self; [exact S1|]; intros x Hx; destruct (VT x Hx) as (v & Ev & _); eauto|].
    constructor.
    - intros x Hx. destruct (VT x Hx) as (v & Ev & Ev'). rewrite Ev, Ev'. reflexivity.
    - intros x Hx. cbn in Hx. apply negb_false_iff in Hx. specialize (HC2 x (memb_in _ _ Hx)).
      destruct (b_R b x) as [pr|] eqn:Ey; [|discriminate HC2]. destruct (b_R b2 x) as [pr2|] eqn:Ey2; [|discriminate HC2].
      apply andb_prop in HC2 as [F1 F2].
      destruct (or_R _ _ _ _ _ _ _ R1 x pr2 Ey2) as (A1 & A2). destruct (or_R _ _ _ _ _ _ _ R2 x pr Ey) as (B1 & B2).
      unfold RTs in *. destruct (o_R o1 x) as [m1 w1], (o_R o2 x) as [m2 w2]; cbn in *. subst.
      f_equal; eapply unified_den; eauto.
    - intros p Hp. destruct (sh_m _ _ S2 p Hp) as (P2 & m2 & F2 & G2). exists P2. split; [exact F2|].
      assert (Hp' : In p (seq 0 4)) by (apply in_seq; lia). specialize (HC3 p Hp').
      destruct (nth_error (b_P b) p) as [[[y|] q1]|] eqn:Ey; try discriminate HC3.
      destruct (nth_error (b_P b2) p) as [[[y2|] q2]|] eqn:Ey2; try discriminate HC3.
      destruct (or_M _ _ _ _ _ _ _ R1 p y2 q2 Ey2) as (X1 & v1 & A1 & A2 & A3).
      destruct (or_M _ _ _ _ _ _ _ R2 p y q1 Ey) as (X2 & v2 & B1 & B2 & B3).
      cbn. unfold omass. rewrite Nat.min_l by lia. rewrite A1, A2. cbn [cval]. rewrite F2 in B1. injection B1 as <-. rewrite B2.
      f_equal. unfold RTs in A3, B3. rewrite A3, B3. eapply unified_den; eauto.
  Qed.
End Unified.

(** C44 for the ten classes, in every arithmetic in which the literals 3.0 and 4.0 are the integers
    3 and 4, if massW is given as at construction (eight classes), or masse is given as zero (nWWn
    and nnWW).  Missing: other values, for which it is false (C44_rebuilding_refuted). *)
Theorem C44_rebuilding_stale_partial :
  forall c, In c sm_classes -> named stale c = true ->
  forall num : Num, polar_total (num:=num) -> tD (dQ (n:=num) 3) = tZ 3 -> tD (dQ (n:=num) 4) = tZ 4 ->
  forall (junk : id -> nat -> T num) (params masses : list (T num)) (o o1 o2 : obj num) r (h h1 h2 : list (ocall num)),
    (if named ["nWWn"; "nnWW"]%string c then set_to c masses n_masse = Some (tZ (n:=num) 0)
     else set_to c masses n_massW = built_with c params n_massW) ->
    construct junk c params = (Ok tt, o) -> forallb not_set_v h = true ->
    callm junk c n_set_masses (map GT masses) (snd (orun junk c h o)) = (Ok r, o1) ->
    construct junk c (rebuilt c params masses) = (Ok tt, o2) ->
    forallb no_setter h1 = true -> forallb no_setter h2 = true ->
  forall q1 q2 q3 q4 : mom num,
    let given o := callm junk c n_set_momenta [GMom q1; GMom q2; GMom q3; GMom q4] o in
    let g1 := given (snd (orun junk c h1 o1)) in
    let g2 := given (snd (orun junk c h2 o2)) in
    fst g1 = fst g2 /\
    (isOk (fst g1) = true ->
     forall rs1 rs2, forallb reading rs1 = true -> forallb reading rs2 = true ->
     forall m, argless c m ->
       fst (callm junk c m [] (snd (orun junk c rs1 (snd g1)))) =
       fst (callm junk c m [] (snd (orun junk c rs2 (snd g2))))).
Proof.
  intros c Hc Hs num HP L3 L4 junk params masses o o1 o2 r h h1 h2 HW EC Hh E1 E2 H1 H2 q1 q2 q3 q4. cbn zeta.
  assert (HU : agreeing c params masses).
  { unfold agreeing, keeps_W. rewrite Hs. change late_electron with ["nWWn"; "nnWW"]%string.
    destruct (named ["nWWn"; "nnWW"]%string c); exact HW. }
  destruct (shape_c c Hc) as (b & EB & HM & HA).
  destruct (has_set_masses junk c _ _ _ _ E1) as (f & EF). destruct (setm_c c Hc b f EF EB) as (HSig & b2 & EB2 & _).
  pose proof (proj1 (forallb_forall _ _) sm_unified c Hc) as HSame. cbv beta in HSame. rewrite Hs in HSame. cbn [negb orb] in HSame.
  assert (HOff : (length (c_params c) < off)%nat).
  { unfold same_unified in HSame. apply andb_prop in HSame as [K _]. apply Nat.ltb_lt, K. }
  assert (HT : twin (dyn_mask c) b o1 o2).
  { eapply (unified_twin c b b2 junk params masses o (snd (orun junk c h o)) o1 o2 EB HM EB2 HSig HOff EC
      (like_history_m junk c h o Hc Hh) r E1 E2 HU); [split; assumption|exact HSame|]. apply mass_ok; [exact Hc|reflexivity]. }
  assert (HT' : twin (dyn_mask c) b (snd (orun junk c h1 o1)) (snd (orun junk c h2 o2))).
  { apply (twin_like _ _ o1 o2); [reflexivity|exact HT|apply like_history; assumption|apply like_history; assumption]. }
  destruct (twins c (dyn_mask c) b (argless_list c) HP (takes_c c Hc) HA junk junk _ _ [q1; q2; q3; q4] HT' eq_refl) as [K1 K2].
  split; [exact K1|]. intros HOk rs1 rs2 R1 R2 m Hm.
  apply K2; [exact HOk|apply reading_reads; assumption|apply reading_reads; assumption|apply argless_in, Hm].
Qed.
Print Assumptions C44_rebuilding_stale_partial.

(** ** A parameter that set_masses does not read *)
Fixpoint avoids_e {t} (x : id) (e : exp t) : bool :=
  match e with
  | EInt _ | ELit _ | EMemT _ => true
  | ELocT y => negb (Pos.eqb y x)
  | EUn _ _ _ e => avoids_e x e
  | EBin _ _ _ _ e f => avoids_e x e && avoids_e x f
  | _ => false
  end.
Fixpoint avoids (x : id) (s : stmt) : bool :=
  match s with
  | SSeq s1 s2 => avoids x s1 && avoids x s2
  | SMemT _ e | SSetMass _ e | SPropMass _ e => avoids_e x e
  | _ => false
  end.
Section Avoid.
  Context {num : Num}.
  Variable junk : id -> nat -> T num.
  Variable call : id -> list (arg num) -> ST (obj num) (option (ret num)).
  Variable x : id.
  (** does the same whatever the local variable x holds, and keeps the local variables *)
  Definition blind {A} (m : ST (st num) A) : Prop :=
    forall o l l', (forall y, y <> x -> l_T l y = l_T l' y) ->
    exists r o', m (o, l) = (r, (o', l)) /\ m (o, l') = (r, (o', l')).
  Lemma blind_bind {A B} (m : ST (st num) A) (f : A -> ST (st num) B) :
    blind m -> (forall a, blind (f a)) -> blind (sbind m f).
  Proof.
    intros Hm Hf o l l' H. destruct (Hm o l l' H) as (r & o' & E & E'). unfold sbind. rewrite E, E'.
    destruct r; [apply Hf, H|eauto|eauto].
  Qed.
  Lemma blind_lift {A} (r : outcome A) : blind (slift r).
  Proof. intros o l l' _. exists r, o. split; reflexivity. Qed.
  Lemma blind_o {A} (f : ST (obj num) A) : blind (ono f).
  Proof. intros o l l' _. unfold ono. cbn [fst snd]. destruct (f o) as [r o']. eauto. Qed.
  Lemma blind_void (m : ST (st num) unit) : blind m -> blind (void m).
  Proof. intros H. apply blind_bind; [exact H|]. intros _. apply (blind_lift (Ok None)). Qed.
  Lemma blind_mod f : blind (modo (num:=num) f).
  Proof. intros o l l' _. exists (Ok tt), (f o). split; reflexivity. Qed.
  Lemma blind_eval : forall t (e : exp t), avoids_e x e = true -> blind (eval call e).
  Proof.
    induction e; cbn [avoids_e eval]; intros H; try discriminate H.
    - apply (blind_lift (Ok _)).
    - apply (blind_lift (Ok _)).
    - apply negb_true_iff, Pos.eqb_neq in H. intros o l l' Hl. exists (rd (l_T l x0)), o.
      unfold sbind, getl, slift. cbn [fst snd]. rewrite (Hl _ H). split; reflexivity.
    - apply blind_bind; [intros o l l' _; eexists _, o; split; reflexivity|]. intros. apply blind_lift.
    - apply blind_bind; [auto|]. intros. apply blind_lift.
    - apply andb_prop in H as [H1 H2]. apply blind_bind; [auto|]. intros. apply blind_bind; [auto|]. intros. apply blind_lift.
  Qed.
  Lemma blind_exec : forall s, avoids x s = true -> blind (exec junk call s).
  Proof.
    induction s; cbn [avoids exec]; intros H; try discriminate H.
    - apply andb_prop in H as [H1 H2]. apply blind_bind; [auto|]. intros [r|]; [apply (blind_lift (Ok _))|auto].
    - apply blind_bind; [apply blind_eval, H|]. intros. apply blind_void, blind_mod.
    - apply blind_bind; [apply blind_eval, H|]. intros. apply blind_void, blind_o.
    - apply blind_bind; [apply blind_eval, H|]. intros. apply blind_void, blind_mod.
  Qed.
End Avoid.

Definition yukawa : list string := ["dAdh"; "dgdh"; "hgdd"; "hguu"; "uAuh"; "uguh"]%string.
(** the third and last parameter of set_masses is massW, and is not read *)
Definition W_unread (c : cls) : bool :=
  match find_meth c n_set_masses with
  | Some f => match m_params f with
    | [(_, PkT); (_, PkT); (x, PkT)] => Pos.eqb x n_massW && avoids n_massW (m_body f)
    | _ => false end
  | None => false
  end.
Lemma sm_unread : forallb (fun c => negb (named yukawa c) || W_unread c) sm_classes = true.
Proof. vm_cast_no_check (eq_refl true). Qed.

(** set_masses(m, mh, massW) of the six Yukawa classes ignores massW: result and object are the
    same for any two values. *)
Lemma W_ignored : forall c, In c sm_classes -> named yukawa c = true ->
  forall (num : Num) (junk : id -> nat -> T num) (m h w w' : T num) (o : obj num),
  callm junk c n_set_masses [GT m; GT h; GT w] o = callm junk c n_set_masses [GT m; GT h; GT w'] o.
Proof.
  intros c Hc Hy num junk m h w w' o. pose proof (proj1 (forallb_forall _ _) sm_unread c Hc) as K. cbv beta in K.
  rewrite Hy in K. cbn [negb orb] in K. unfold W_unread in K.
  unfold callm. change (run junk c 2 n_set_masses) with (fun args =>
    match find_meth c n_set_masses with Some f => invoke junk (run junk c 1) f args | None => slift (UB TypeMismatch) end). cbv beta.
  destruct (find_meth c n_set_masses) as [f|]; [|discriminate K]. unfold invoke.
  destruct (m_params f) as [|[x1 [| |]] [|[x2 [| |]] [|[x3 [| |]] [|]]]]; try discriminate K.
  apply andb_prop in K as [K1 K2]. apply Pos.eqb_eq in K1. subst x3.
  cbn [bind_args bind_arg fst snd obind].
  match goal with |- (let (_, _) := exec _ _ _ (_, ?l) in _) = (let (_, _) := exec _ _ _ (_, ?l') in _) =>
    destruct (blind_exec junk (run junk c 1) n_massW _ K2 o l l') as (r & o' & E & E') end.
  { intros y Hy'. cbn [w_T l_T]. unfold upd. destruct (Pos.eqb n_massW y) eqn:Ey; [apply Pos.eqb_eq in Ey; congruence|reflexivity]. }
  rewrite E, E'. reflexivity.
Qed.

Lemma sm_third : forallb (fun c => negb (named yukawa c) ||
  match index n_massW (sm_params c) with Some 2%nat => true | _ => false end) sm_classes = true.
Proof. vm_cast_no_check (eq_refl true). Qed.

(** Hence those six objects answer, whatever massW is given to set_masses, as a new object with
    the other new masses and the massW of the old construction. *)
Theorem C44_old_W_mass_partial :
  forall c, In c sm_classes -> named ["dAdh"; "dgdh"; "hgdd"; "hguu"; "uAuh"; "uguh"]%string c = true ->
  forall num : Num, polar_total (num:=num) -> tD (dQ (n:=num) 3) = tZ 3 -> tD (dQ (n:=num) 4) = tZ 4 ->
  forall (junk : id -> nat -> T num) (params : list (T num)) (m mh W W_old : T num) (o o1 o2 : obj num) r (h h1 h2 : list (ocall num)),
    built_with c params n_massW = Some W_old ->
    construct junk c params = (Ok tt, o) -> forallb not_set_v h = true ->
    callm junk c n_set_masses [GT m; GT mh; GT W] (snd (orun junk c h o)) = (Ok r, o1) ->
    construct junk c (rebuilt c params [m; mh; W_old]) = (Ok tt, o2) ->
    forallb no_setter h1 = true -> forallb no_setter h2 = true ->
  forall q1 q2 q3 q4 : mom num,
    let given o := callm junk c n_set_momenta [GMom q1; GMom q2; GMom q3; GMom q4] o in
    let g1 := given (snd (orun junk c h1 o1)) in
    let g2 := given (snd (orun junk c h2 o2)) in
    fst g1 = fst g2 /\
    (isOk (fst g1) = true ->
     forall rs1 rs2, forallb reading rs1 = true -> forallb reading rs2 = true ->
     forall f, argless c f ->
       fst (callm junk c f [] (snd (orun junk c rs1 (snd g1)))) =
       fst (callm junk c f [] (snd (orun junk c rs2 (snd g2))))).
Proof.
  intros c Hc Hy num HP L3 L4 junk params m mh W Wo o o1 o2 r h h1 h2 HW EC Hh E1 E2 H1 H2.
  assert (Hs : named stale c = true /\ named ["nWWn"; "nnWW"]%string c = false).
  { clear - Hy. unfold named in *. cbn [existsb stale] in *.
    repeat match type of Hy with
    | (String.eqb ?a ?b || _)%bool = true => destruct (String.eqb a b) eqn:E; [apply String.eqb_eq in E; rewrite E; split; reflexivity|cbn [orb] in Hy; clear E]
    end. discriminate Hy. }
  destruct Hs as [Hs Hn]. rewrite (W_ignored c Hc Hy num junk m mh W Wo) in E1.
  refine (C44_rebuilding_stale_partial c Hc Hs num HP L3 L4 junk params [m; mh; Wo] o o1 o2 r h h1 h2 _ EC Hh E1 E2 H1 H2).
  rewrite Hn, HW. pose proof (proj1 (forallb_forall _ _) sm_third c Hc) as K. cbv beta in K.
  change (named yukawa c = true) in Hy. rewrite Hy in K. cbn [negb orb] in K. unfold set_to.
  destruct (index n_massW (sm_params c)) as [[|[|[|j]]]|]; try discriminate K. reflexivity.
Qed.
Print Assumptions C44_old_W_mass_partial.

(** The hypotheses are met by dAdh with the masses 6, 14, 80 instead of 5, 12, 80 (both values of
    amp2 are finite and not zero, and equal), and for nnWW by the masses 0, 90.  By W_ignored dAdh
    meets those of C44_old_W_mass_partial with any other third mass as well. *)
Example C44_stale_example :
  In dAdh sm_classes /\ named stale dAdh = true /\
  set_to dAdh (fnums [6; 14; 80]%Q) n_massW = built_with dAdh (fnums [1; 5; 12; 80; 3 # 5]%Q) n_massW /\
  compare (fun x y => finite_nonzero x && negb (far x y) && negb (far y x)) dAdh
    (fnums [1; 5; 12; 80; 3 # 5]%Q) (fnums [6; 14; 80]%Q) (fz 200) = true /\
  named stale nnWW = true /\ set_to nnWW [tZ (n:=XN) 0; tZ (n:=XN) 90] n_masse = Some (tZ (n:=XN) 0).
Proof.
  refine (conj _ (conj eq_refl (conj eq_refl (conj _ (conj eq_refl eq_refl))))).
  - unfold sm_classes. rewrite !in_app_iff. cbn. tauto.
  - vm_cast_no_check (eq_refl true).
Qed.
