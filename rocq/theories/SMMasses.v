(** * set_masses

    Two objects of the same origin given the same masses hold the same, whatever was called
    on them before. *)
From Coq Require Import QArith Lia.
From Verif Require Import Base Scalar Linear Integers Particle Sproduct Propagator Process
  ParticleProofs Ready ParticleClaims SpecSproduct WorldProofs Lang LangFrame Pure PureProofs ReadOnly Sym SMNames
  SMRun SMTwins.
Close Scope Q_scope.
Open Scope st_scope.

Definition memb (x : id) (l : list id) : bool := existsb (Pos.eqb x) l.
Lemma memb_in x l : memb x l = true -> In x l.
Proof. unfold memb. rewrite existsb_exists. intros (y & Hy & E). apply Pos.eqb_eq in E. subst. exact Hy. Qed.

(** what statements write *)
Fixpoint writes_T (s : stmt) : list id :=
  match s with
  | SSeq a b => writes_T a ++ writes_T b
  | SIf _ a b => writes_T a ++ writes_T b
  | SFor _ _ _ _ a => writes_T a
  | SMemT x _ => [x]
  | _ => []
  end.
Fixpoint writes_R (s : stmt) : list id :=
  match s with
  | SSeq a b => writes_R a ++ writes_R b
  | SIf _ a b => writes_R a ++ writes_R b
  | SFor _ _ _ _ a => writes_R a
  | SPropMass r _ => [r]
  | _ => []
  end.
Fixpoint writes_P (s : stmt) : list nat :=
  match s with
  | SSeq a b => writes_P a ++ writes_P b
  | SIf _ a b => writes_P a ++ writes_P b
  | SFor _ _ _ _ a => writes_P a
  | SSetMass p _ => [p]
  | _ => []
  end.
Definition members (c : cls) : list id :=
  flat_map (fun x => match snd x with KT => [fst x] | _ => [] end) (c_members c).
Definition props (c : cls) : list id :=
  flat_map (fun x => match snd x with KProp => [fst x] | _ => [] end) (c_members c).
Definition is_setter (m : id) : bool := Pos.eqb m n_set_masses || Pos.eqb m n_set_v.

(** written by methods other than set_masses and set_v; or not a member *)
Definition dynl (c : cls) : list id :=
  flat_map (fun f => if is_setter (m_name f) then [] else writes_T (m_body f)) (c_methods c).
Definition dyn_mask (c : cls) : mask :=
  mkMask (fun x => memb x (dynl c) || negb (memb x (members c))) (fun r => negb (memb r (props c))) (fun _ => false).
(** also what set_masses writes *)
Definition sm_body (c : cls) : stmt :=
  match find_meth c n_set_masses with Some f => m_body f | None => SSkip end.
Definition mass_mask (c : cls) : mask :=
  mkMask (fun x => k_T (dyn_mask c) x || memb x (writes_T (sm_body c)))
         (fun r => k_R (dyn_mask c) r || memb r (writes_R (sm_body c)))
         (fun p => existsb (Nat.eqb p) (writes_P (sm_body c))).
Definition open_mask (c : cls) : mask := mkMask (k_T (mass_mask c)) (k_R (dyn_mask c)) (fun _ => false).

Definition fine_a (k : mask) (a : tatom) : bool :=
  match a with
  | AMem x => negb (k_T k x)
  | APm r => negb (k_R k r)
  | APw _ | APar _ => true
  | AMass p => negb (k_P k p) && (p <? 4)%nat
  | _ => false
  end.
Fixpoint fine (k : mask) (y : sT) : bool :=
  match y with
  | TInt _ | TofD _ => true
  | TOp _ x y => fine k x && fine k y
  | TNeg x | TSqr x | TPw x => fine k x
  | TAt a => fine_a k a
  | _ => false
  end.
Lemma fine_den {num : Num} k (rT rT' : tatom -> T num) rC rC' :
  (forall a, fine_a k a = true -> rT a = rT' a) ->
  forall y, fine k y = true -> denT rT rC y = denT rT' rC' y.
Proof.
  intros HA. assert (HD : forall x, denD (num:=num) x = denD x) by reflexivity.
  induction y; cbn [fine]; intros H; try discriminate H; cbn [denT]; try reflexivity.
  - apply andb_prop in H as [H1 H2]. rewrite IHy1, IHy2 by assumption. reflexivity.
  - rewrite IHy by assumption. reflexivity.
  - rewrite IHy by assumption. reflexivity.
  - rewrite IHy by assumption. reflexivity.
  - apply HA, H.
Qed.

Definition Q0 : oracle snum := sym_oracle (fun _ => None) (fun _ _ => true) true (fun _ => None).
Definition sargs (n : nat) : list (arg snum) := map (fun j => GT (TAt (APar j) : T snum)) (seq 0 n).
Definition sm_params (c : cls) : list id :=
  match find_meth c n_set_masses with Some f => map fst (m_params f) | None => [] end.
Definition sm_sig (c : cls) : bool :=
  match find_meth c n_set_masses with
  | Some f => forallb (fun x => match snd x with PkT => true | _ => false end) (m_params f)
  | None => false
  end.
Definition setm (c : cls) (b : pobj snum) : pres (pobj snum) :=
  match pmethod Q0 c (pinner Q0 c) n_set_masses (sargs (length (sm_params c))) (jobj (open_mask c) b) with
  | POk (_, b2) => POk b2
  | PExn e => PExn e
  | PNone => PNone
  end.

Section Masses.
  Context {num : Num}.
  Variable c : cls.
  Variable b : pobj snum.
  Notation k := (mass_mask c).
  Notation d := (dyn_mask c).
  Notation vC := (fun (_ : id) (_ : list Z) => c0 (num:=num)).

  Lemma sm_len (junk : id -> nat -> T num) (a : list (T num)) o r o' : sm_sig c = true ->
    callm junk c n_set_masses (map GT a) o = (Ok r, o') -> length a = length (sm_params c).
  Proof.
    unfold sm_sig, sm_params, callm. change (run junk c 2 n_set_masses) with (fun args =>
      match find_meth c n_set_masses with Some f => invoke junk (run junk c 1) f args | None => slift (UB TypeMismatch) end).
    cbn beta. destruct (find_meth c n_set_masses) as [f|]; [|discriminate]. unfold invoke. intros HS.
    destruct (bind_args (m_params f) (map GT a) (env0 junk)) as [l|e|u] eqn:EB; try discriminate. intros _.
    rewrite map_length. revert a EB. generalize (env0 junk). induction (m_params f) as [|[x kd] ps IH]; intros e a EB.
    - destruct a; [reflexivity|discriminate EB].
    - cbn in HS. apply andb_prop in HS as [H1 H2]. destruct kd; try discriminate H1.
      destruct a as [|v a]; [discriminate EB|]. cbn in EB |- *. f_equal. eapply IH; eauto.
  Qed.
  Lemma sargs_den (rT : tatom -> T num) rC suf : forall pre,
    (forall j, rT (APar j) = nth j (pre ++ suf) (tZ 0)) ->
    Forall2 (Rarg (RTs rT rC)) (map GT suf) (map (fun j => GT (TAt (APar j) : T snum)) (seq (length pre) (length suf))).
  Proof.
    induction suf as [|x suf IH]; intros pre HR; cbn [length seq map]; constructor.
    - cbn. unfold RTs. cbn [denT]. rewrite HR, app_nth2, Nat.sub_diag by lia. reflexivity.
    - specialize (IH (pre ++ [x])). rewrite app_length, <- app_assoc in IH. cbn in IH.
      rewrite Nat.add_1_r in IH. apply IH, HR.
  Qed.

  (** the atoms mean what they do in the object the history started from, except the masses
      of propagators and particles, which are those of the present object *)
  Definition at_masses (oc o : obj num) (a : list (T num)) : tatom -> T num :=
    rT1 (fun x => cval (o_T oc x)) (o_R o) (ext_of o [] a).
  Lemma after_setm (junk : id -> nat -> T num) oc o a r o' b2 :
    sm_sig c = true -> setm c b = POk b2 ->
    shaped b oc -> (forall x, known k b x = true -> exists v, o_T oc x = Val v) -> like k oc o ->
    callm junk c n_set_masses (map GT a) o = (Ok r, o') ->
    OR false (RTs (at_masses oc o a) vC) (RCs (at_masses oc o a) vC) Q0 o' b2.
  Proof.
    intros HSig HB HS HK HL EC. pose proof (sm_len junk a o r o' HSig EC) as HLen.
    pose proof (shaped_like k b oc o HS HL) as HSo.
    assert (HA : agrees (open_mask c) b (fun x => cval (o_T oc x)) (o_R o) (ext_of o [] a) o).
    { constructor.
      - intros x Hx. destruct (HK x Hx) as (v & Ev). apply andb_prop in Hx as [Hx _]. apply negb_true_iff in Hx.
        rewrite (like_T _ _ _ HL) by exact Hx. rewrite Ev. reflexivity.
      - reflexivity.
      - intros p Hp. destruct (sh_m _ _ HSo p Hp) as (P & m & E1 & E2). exists P. split; [exact E1|].
        cbn. unfold omass. rewrite Nat.min_l by lia. rewrite E1, E2. reflexivity. }
    pose proof (before_OR _ b _ _ _ vC false Q0 o (fun _ => eq_refl) HSo HA) as HO. fold (at_masses oc o a) in HO.
    assert (HQ : oracle_ok false (RTs (at_masses oc o a) vC) (RCs (at_masses oc o a) vC) Q0) by (apply sym_ok; discriminate).
    assert (HArg : Forall2 (Rarg (RTs (at_masses oc o a) vC)) (map GT a) (sargs (length (sm_params c)))).
    { unfold sargs. rewrite <- HLen. apply (sargs_den _ _ a []). intros j. reflexivity. }
    pose proof (method_ref false _ _ _ (sym_hom (at_masses oc o a) vC) Q0 HQ junk c n_set_masses _ _ o _ HArg HO) as K.
    unfold setm in HB. destruct (pmethod Q0 c (pinner Q0 c) n_set_masses (sargs (length (sm_params c))) (jobj (open_mask c) b))
      as [|e|[r' b2']]; try discriminate HB. injection HB as ->. unfold REF in K. rewrite EC in K. apply K.
  Qed.

  (** every member, propagator and mass is fixed by the arguments and by what set_masses never writes *)
  Definition closed (b2 : pobj snum) : bool :=
    forallb (fun x => negb (known d b x) || match b_T b2 x with Some y => fine k y | None => false end) (members c) &&
    forallb (fun r => match b_R b2 r with Some pr => fine k (pr_m pr) && fine k (pr_w pr) | None => false end) (props c) &&
    match b_P b2 with
    | [(Some y0, _); (Some y1, _); (Some y2, _); (Some y3, _)] => fine k y0 && fine k y1 && fine k y2 && fine k y3
    | _ => false
    end.
  Lemma at_masses_same oc o1 o2 a : shaped b oc -> like k oc o1 -> like k oc o2 ->
    forall t, fine_a k t = true -> at_masses oc o1 a t = at_masses oc o2 a t.
  Proof.
    intros HS L1 L2 t Ht. destruct t; cbn [fine_a] in Ht; try discriminate Ht; cbn; try reflexivity.
    - apply negb_true_iff in Ht. rewrite (like_R _ _ _ L1), (like_R _ _ _ L2) by exact Ht. reflexivity.
    - rewrite (like_w _ _ _ L1), (like_w _ _ _ L2). reflexivity.
    - apply andb_prop in Ht as [Ht Hp]. apply negb_true_iff in Ht. apply Nat.ltb_lt in Hp. unfold omass.
      rewrite Nat.min_l by lia. destruct (sh_m _ _ HS p Hp) as (P & m & E1 & E2).
      destruct (proj2 (like_h _ _ _ L1) p P E1) as (P1 & F1 & F2 & _).
      destruct (proj2 (like_h _ _ _ L2) p P E1) as (P2 & G1 & G2 & _).
      rewrite F1, G1, F2, G2 by exact Ht. reflexivity.
  Qed.
  Lemma known_member x : known d b x = true -> In x (members c).
  Proof.
    intros H. apply andb_prop in H as [H _]. apply negb_true_iff in H. cbn in H. apply orb_false_iff in H as [_ H].
    apply negb_false_iff in H. apply memb_in, H.
  Qed.

  Theorem masses_twins (junk1 junk2 : id -> nat -> T num) oc o1 o2 a r1 r2 o1' o2' b2 :
    sm_sig c = true -> setm c b = POk b2 -> closed b2 = true -> method_ok c k n_set_masses = true ->
    shaped b oc -> (forall x, known k b x = true -> exists v, o_T oc x = Val v) -> like k oc o1 -> like k oc o2 ->
    callm junk1 c n_set_masses (map GT a) o1 = (Ok r1, o1') ->
    callm junk2 c n_set_masses (map GT a) o2 = (Ok r2, o2') ->
    twin d b o1' o2'.
  Proof.
    intros HSig HB HC HM HS HK L1 L2 E1 E2.
    pose proof (after_setm junk1 oc o1 a r1 o1' b2 HSig HB HS HK L1 E1) as (D1 & R1).
    pose proof (after_setm junk2 oc o2 a r2 o2' b2 HSig HB HS HK L2 E2) as (D2 & R2).
    pose proof (at_masses_same oc o1 o2 a HS L1 L2) as HE.
    assert (S1 : shaped b o1').
    { pose proof (method_quiet junk1 c k n_set_masses (map GT a) HM o1) as K. rewrite E1 in K.
      exact (shaped_like k b o1 o1' (shaped_like k b oc o1 HS L1) K). }
    assert (S2 : shaped b o2').
    { pose proof (method_quiet junk2 c k n_set_masses (map GT a) HM o2) as K. rewrite E2 in K.
      exact (shaped_like k b o2 o2' (shaped_like k b oc o2 HS L2) K). }
    apply andb_prop in HC as [HC HC3]. apply andb_prop in HC as [HC1 HC2].
    rewrite forallb_forall in HC1, HC2.
    assert (VT : forall x, known d b x = true -> exists v, o_T o1' x = Val v /\ o_T o2' x = Val v).
    { intros x Hx. specialize (HC1 x (known_member x Hx)). rewrite Hx in HC1. cbn [negb orb] in HC1.
      destruct (b_T b2 x) as [y|] eqn:Ey; [|discriminate HC1].
      destruct (or_T _ _ _ _ _ _ _ R1 x y Ey) as (v1 & V1 & W1). destruct (or_T _ _ _ _ _ _ _ R2 x y Ey) as (v2 & V2 & W2).
      exists v1. split; [exact V1|]. rewrite V2. f_equal. unfold RTs in W1, W2. rewrite W1, W2. symmetry.
      apply (fine_den k); assumption. }
    split; [exact S1|]. split; [exact S2|].
    exists o1', (fun x => cval (o_T o1' x)), (o_R o1'). intros q.
    split; [apply agrees_self; [exact S1|]; intros x Hx; destruct (VT x Hx) as (v & Ev & _); eauto|].
    constructor.
    - intros x Hx. destruct (VT x Hx) as (v & Ev & Ev'). rewrite Ev, Ev'. reflexivity.
    - intros x Hx. cbn in Hx. apply negb_false_iff in Hx. specialize (HC2 x (memb_in _ _ Hx)).
      destruct (b_R b2 x) as [pr|] eqn:Ey; [|discriminate HC2]. apply andb_prop in HC2 as [F1 F2].
      destruct (or_R _ _ _ _ _ _ _ R1 x pr Ey) as (A1 & A2). destruct (or_R _ _ _ _ _ _ _ R2 x pr Ey) as (B1 & B2).
      unfold RTs in *. destruct (o_R o1' x) as [m1 w1], (o_R o2' x) as [m2 w2]; cbn in *. subst. f_equal; symmetry;
        apply (fine_den k); assumption.
    - intros p Hp. destruct (sh_m _ _ S2 p Hp) as (P2 & m2 & F2 & G2). exists P2. split; [exact F2|].
      destruct (sh_m _ _ S1 p Hp) as (P1 & m1 & F1 & G1).
      assert (EM : exists y q, nth_error (b_P b2) p = Some (Some y, q) /\ fine k y = true).
      { destruct (b_P b2) as [|[[y0|] q0] [|[[y1|] q1] [|[[y2|] q2] [|[[y3|] q3] [|]]]]]; try discriminate HC3.
        repeat (apply andb_prop in HC3 as [HC3 ?]).
        do 4 (destruct p as [|p]; [cbn; eexists; eexists; split; [reflexivity|assumption]|]). lia. }
      destruct EM as (y & q' & Ey & Fy).
      destruct (or_M _ _ _ _ _ _ _ R1 p y q' Ey) as (X1 & v1 & A1 & A2 & A3).
      destruct (or_M _ _ _ _ _ _ _ R2 p y q' Ey) as (X2 & v2 & B1 & B2 & B3).
      cbn. unfold omass. rewrite Nat.min_l by lia. rewrite A1, A2. cbn [cval]. rewrite F2 in B1. injection B1 as <-. rewrite B2.
      f_equal. unfold RTs in A3, B3. rewrite A3, B3. symmetry. apply (fine_den k); assumption.
  Qed.
End Masses.
