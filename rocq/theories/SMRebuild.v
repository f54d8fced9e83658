(** * set_masses and a new construction

    An object given new masses holds the same as an object constructed with them, for the
    classes in which the formal results of both agree. *)
From Coq Require Import QArith Lia.
From Verif Require Import Base Scalar Linear Integers Particle Sproduct Propagator Process
  ParticleProofs Ready ParticleClaims SpecSproduct WorldProofs Lang LangFrame Pure PureProofs ReadOnly Sym SMNames
  SMRun SMTwins SMMasses.
Close Scope Q_scope.
Open Scope st_scope.

(** ** Comparing terms *)
Definition aop_eqb (a b : aop) : bool :=
  match a, b with Add, Add | Sub, Sub | Mul, Mul | Div, Div => true | _, _ => false end.
Fixpoint deqb (x y : sD) : bool :=
  match x, y with
  | DLit a, DLit b => Z.eqb (Qnum a) (Qnum b) && Pos.eqb (Qden a) (Qden b)
  | DOp a x y, DOp b x' y' => aop_eqb a b && deqb x x' && deqb y y'
  | DNeg x, DNeg y => deqb x y
  | DSqr x, DSqr y => deqb x y
  | _, _ => false
  end.
Definition atom_eqb (x y : tatom) : bool :=
  match x, y with
  | AMem a, AMem b => Pos.eqb a b
  | APm a, APm b => Pos.eqb a b
  | APw a, APw b => Pos.eqb a b
  | AMass a, AMass b => Nat.eqb a b
  | APar a, APar b => Nat.eqb a b
  | AMom a b, AMom a' b' => Nat.eqb a a' && Nat.eqb b b'
  | AJunk a, AJunk b => Pos.eqb a b
  | _, _ => false
  end.
Fixpoint teq (x y : sT) : bool :=
  match x, y with
  | TInt a, TInt b => Z.eqb a b
  | TofD a, TofD b => deqb a b
  | TOp a x y, TOp b x' y' => aop_eqb a b && teq x x' && teq y y'
  | TNeg x, TNeg y | TSqr x, TSqr y | TPw x, TPw y => teq x y
  | TAt a, TAt b => atom_eqb a b
  | _, _ => false
  end.
Lemma aop_eqb_eq a b : aop_eqb a b = true -> a = b.
Proof. destruct a, b; cbn; congruence. Qed.
Ltac beq :=
  repeat match goal with
  | H : _ && _ = true |- _ => apply andb_prop in H as [? ?]
  | H : Pos.eqb _ _ = true |- _ => apply Pos.eqb_eq in H
  | H : Z.eqb _ _ = true |- _ => apply Z.eqb_eq in H
  | H : Nat.eqb _ _ = true |- _ => apply Nat.eqb_eq in H
  | H : aop_eqb _ _ = true |- _ => apply aop_eqb_eq in H
  end.
Lemma deqb_eq : forall x y, deqb x y = true -> x = y.
Proof.
  induction x as [[? ?]| | |]; destruct y as [[? ?]| | |]; cbn; intros H; try discriminate H; beq; subst; f_equal; auto.
Qed.
Lemma atom_eqb_eq x y : atom_eqb x y = true -> x = y.
Proof. destruct x, y; cbn; intros H; try discriminate H; beq; subst; reflexivity. Qed.
Lemma teq_eq : forall x y, teq x y = true -> x = y.
Proof.
  induction x; destruct y; cbn; intros H; try discriminate H; beq; subst; f_equal; auto using deqb_eq, atom_eqb_eq.
Qed.

(** the literals 3.0 and 4.0 and the integers 3 and 4 *)
Fixpoint norm (x : sT) : sT :=
  match x with
  | TofD (DLit (Qmake 3 1)) => TInt 3
  | TofD (DLit (Qmake 4 1)) => TInt 4
  | TOp a x y => TOp a (norm x) (norm y)
  | TNeg x => TNeg (norm x)
  | TSqr x => TSqr (norm x)
  | TPw x => TPw (norm x)
  | _ => x
  end.
Fixpoint plain (x : sT) : bool :=
  match x with
  | TInt _ | TofD _ | TAt _ => true
  | TOp _ x y => plain x && plain y
  | TNeg x | TSqr x | TPw x => plain x
  | _ => false
  end.
Fixpoint sub (f : tatom -> sT) (x : sT) : sT :=
  match x with
  | TOp a x y => TOp a (sub f x) (sub f y)
  | TNeg x => TNeg (sub f x)
  | TSqr x => TSqr (sub f x)
  | TPw x => TPw (sub f x)
  | TAt a => f a
  | _ => x
  end.
Section Den.
  Context {num : Num}.
  Variable rT : tatom -> T num.
  Variable rC : id -> list Z -> CX num.
  Definition literals (num : Num) : Prop := tD (dQ (n:=num) 3) = tZ 3 /\ tD (dQ (n:=num) 4) = tZ 4.
  Lemma norm_den : literals num -> forall x, denT rT rC (norm x) = denT rT rC x.
  Proof.
    intros [H3 H4]. induction x; cbn [norm denT]; try reflexivity; rewrite ?IHx, ?IHx1, ?IHx2; try reflexivity.
    destruct d as [[z p]| | |]; try reflexivity. destruct z as [|z|z]; try reflexivity.
    destruct z as [z|z|]; try reflexivity; destruct z as [z|z|]; try reflexivity.
    - destruct p; try reflexivity. symmetry. exact H3.
    - destruct z; try reflexivity. destruct p; try reflexivity. symmetry. exact H4.
  Qed.
  Lemma sub_den f rC' : forall x, plain x = true -> denT rT rC (sub f x) = denT (fun a => denT rT rC (f a)) rC' x.
  Proof.
    induction x; cbn [plain sub denT]; intros H; try discriminate H; beq; rewrite ?IHx, ?IHx1, ?IHx2 by assumption; reflexivity.
  Qed.
End Den.

(** ** The parameters of the new construction *)
Fixpoint index (x : id) (l : list id) : option nat :=
  match l with
  | [] => None
  | y :: l' => if Pos.eqb x y then Some 0 else match index x l' with Some k => Some (S k) | None => None end
  end.
(** the old ones, with those replaced that set_masses has under the same name *)
Definition rebuilt {A} (c : cls) (old new : list A) : list A :=
  map (fun x => match index (fst x) (sm_params c) with Some j => nth j new (snd x) | None => snd x end)
      (combine (c_params c) old).

(** all in terms of the old parameters, APar 0 .. APar 99, and the new, APar 100 .. *)
Definition off : nat := 100.
Definition as_new (c : cls) (a : tatom) : sT :=
  match a with
  | APar k => match nth_error (c_params c) k with
              | Some x => match index x (sm_params c) with Some j => TAt (APar (off + j)) | None => TAt (APar k) end
              | None => TDummy
              end
  | _ => TAt a
  end.
Definition as_old (b : pobj snum) (a : tatom) : sT :=
  match a with
  | AMem x => match b_T b x with Some y => y | None => TDummy end
  | APm r => match b_R b r with Some y => pr_m y | None => TDummy end
  | APw r => match b_R b r with Some y => pr_w y | None => TDummy end
  | AMass p => match nth_error (b_P b) p with Some (Some y, _) => y | _ => TDummy end
  | APar k => TAt (APar (off + k))
  | _ => TDummy
  end.
Fixpoint parsok (c : cls) (y : sT) : bool :=
  match y with
  | TInt _ | TofD _ => true
  | TOp _ x y => parsok c x && parsok c y
  | TNeg x | TSqr x | TPw x => parsok c x
  | TAt (APar k) => (k <? length (c_params c))%nat
  | TAt (AJunk _) => true
  | _ => false
  end.
(** the atoms are those that set_masses does not write and that construction fixes *)
Definition based_a (c : cls) (b : pobj snum) (a : tatom) : bool :=
  fine_a (mass_mask c) a &&
  match a with
  | APar _ => true
  | AMem x => match b_T b x with Some y => parsok c y | None => false end
  | APm r => match b_R b r with Some y => parsok c (pr_m y) | None => false end
  | APw r => match b_R b r with Some y => parsok c (pr_w y) | None => false end
  | AMass p => match nth_error (b_P b) p with Some (Some y, _) => parsok c y | _ => false end
  | _ => false
  end.
Fixpoint based (c : cls) (b : pobj snum) (y : sT) : bool :=
  match y with
  | TInt _ | TofD _ => true
  | TOp _ x y => based c b x && based c b y
  | TNeg x | TSqr x | TPw x => based c b x
  | TAt a => based_a c b a
  | _ => false
  end.
Definition same_term (c : cls) (b : pobj snum) (exc : bool) (yn y2 : sT) : bool :=
  based c b y2 && parsok c yn && (exc || teq (norm (sub (as_new c) yn)) (norm (sub (as_old b) y2))).

(** construction with new masses against set_masses; members in [exc] are not compared *)
Definition same_as_rebuilt (exc : list id) (c : cls) : bool :=
  (length (c_params c) <? off)%nat &&
  match shape c with
  | POk b =>
    match setm c b with
    | POk b2 =>
      forallb (fun x => negb (known (dyn_mask c) b x) ||
         match b_T b x, b_T b2 x with Some y, Some y2 => same_term c b (memb x exc) y y2 | _, _ => false end) (members c) &&
      forallb (fun r => match b_R b r, b_R b2 r with
                        | Some y, Some y2 => same_term c b false (pr_m y) (pr_m y2) && same_term c b false (pr_w y) (pr_w y2)
                        | _, _ => false end) (props c) &&
      forallb (fun p => match nth_error (b_P b) p, nth_error (b_P b2) p with
                        | Some (Some y, _), Some (Some y2, _) => same_term c b false y y2
                        | _, _ => false end) (seq 0 4)
    | _ => false
    end
  | _ => false
  end.

Section Rebuilt.
  Context {num : Num}.
  Variable c : cls.
  Variable b b2 : pobj snum.
  Variable junk : id -> nat -> T num.
  Variable params a : list (T num).
  Variable oc o o1 o2 : obj num.
  Notation k := (mass_mask c).
  Notation d := (dyn_mask c).
  Notation vC := (fun (_ : id) (_ : list Z) => c0 (num:=num)).
  Hypothesis HB : shape c = POk b.
  Hypothesis HM : has_masses b = true.
  Hypothesis HB2 : setm c b = POk b2.
  Hypothesis HSig : sm_sig c = true.
  Hypothesis HOff : (length (c_params c) < off)%nat.
  Hypothesis EC : construct junk c params = (Ok tt, oc).
  Hypothesis HL : like k oc o.
  Variable r : option (ret num).
  Hypothesis E1 : callm junk c n_set_masses (map GT a) o = (Ok r, o1).
  Hypothesis E2 : construct junk c (rebuilt c params a) = (Ok tt, o2).

  Definition rTT (t : tatom) : T num :=
    match t with
    | APar i => if (i <? off)%nat then nth i params (tZ 0) else nth (i - off) a (tZ 0)
    | AJunk x => junk x 0
    | _ => tZ 0
    end.
  Lemma index_lt x l j : index x l = Some j -> (j < length l)%nat.
  Proof.
    revert j. induction l as [|y l IH]; intros j; cbn; [discriminate|]. destruct (Pos.eqb x y).
    - intros [= <-]. lia.
    - destruct (index x l) as [i|]; [|discriminate]. intros [= <-]. specialize (IH i eq_refl). lia.
  Qed.
  Lemma lena : length a = length (sm_params c).
  Proof. exact (sm_len c junk a o r o1 HSig E1). Qed.
  Lemma lenp : length params = length (c_params c).
  Proof. exact (construct_len junk c params oc EC). Qed.
  Lemma nth_rebuilt i : (i < length (c_params c))%nat ->
    nth i (rebuilt c params a) (tZ 0) = denT rTT vC (as_new c (APar i)).
  Proof.
    intros Hi. unfold rebuilt, as_new. pose proof lenp as HP.
    destruct (nth_error (c_params c) i) as [x|] eqn:Ex; [|apply nth_error_None in Ex; lia].
    assert (K : nth_error (combine (c_params c) params) i = Some (x, nth i params (tZ 0))).
    { clear HOff EC E2. revert i Hi Ex HP. generalize params. induction (c_params c) as [|y l IH]; intros [|p ps] i Hi Ex HP; cbn in *; try lia.
      destruct i as [|i]; cbn in *; [congruence|]. apply IH; [lia|exact Ex|lia]. }
    erewrite nth_error_nth; [|exact (map_nth_error _ _ _ K)]. cbn [fst snd].
    destruct (index x (sm_params c)) as [j|] eqn:Ej; cbn [denT rTT].
    - destruct (off + j <? off)%nat eqn:El; [apply Nat.ltb_lt in El; lia|]. rewrite Nat.add_comm, Nat.add_sub.
      apply nth_indep. rewrite lena. exact (index_lt _ _ _ Ej).
    - assert (El : (i <? off)%nat = true) by (apply Nat.ltb_lt; lia). rewrite El. reflexivity.
  Qed.
  Lemma den_new : forall y, parsok c y = true ->
    denT (rT0 junk (rebuilt c params a)) rC0 y = denT rTT vC (sub (as_new c) y).
  Proof.
    induction y; cbn [parsok sub denT]; intros H; try discriminate H; beq; rewrite ?IHy, ?IHy1, ?IHy2 by assumption; try reflexivity.
    destruct k; try discriminate H; [|reflexivity]. apply Nat.ltb_lt in H. exact (nth_rebuilt _ H).
  Qed.
  Lemma den_pars : forall y, parsok c y = true -> denT (rT0 junk params) rC0 y = denT rTT vC y.
  Proof.
    induction y; cbn [parsok denT]; intros H; try discriminate H; beq; rewrite ?IHy, ?IHy1, ?IHy2 by assumption; try reflexivity.
    destruct k; try discriminate H; [|reflexivity]. apply Nat.ltb_lt in H.
    cbn [rT0 rTT]. assert (El : (k <? off)%nat = true) by (apply Nat.ltb_lt; lia). rewrite El. reflexivity.
  Qed.
  Lemma den_old : forall y, based c b y = true ->
    denT (at_masses oc o a) vC y = denT rTT vC (sub (as_old b) y).
  Proof.
    pose proof (construct_shape junk c params oc b EC HB) as (Dd & HO).
    induction y; cbn [based sub denT]; intros H; try discriminate H; beq; rewrite ?IHy, ?IHy1, ?IHy2 by assumption; try reflexivity.
    unfold based_a in H. apply andb_prop in H as [HF H]. destruct k; try discriminate H; cbn [fine_a at_masses rT1 as_old ext_of x_m x_q x_a] in HF |- *.
    - destruct (b_T b x) as [y|] eqn:Ey; [|discriminate H]. destruct (or_T _ _ _ _ _ _ _ HO x y Ey) as (v & -> & W).
      cbn. unfold RTs in W. rewrite W. apply den_pars, H.
    - destruct (b_R b r0) as [y|] eqn:Ey; [|discriminate H]. apply negb_true_iff in HF. rewrite (like_R _ _ _ HL) by exact HF.
      destruct (or_R _ _ _ _ _ _ _ HO r0 y Ey) as (W & _). unfold RTs in W. rewrite W. apply den_pars, H.
    - destruct (b_R b r0) as [y|] eqn:Ey; [|discriminate H]. rewrite (like_w _ _ _ HL).
      destruct (or_R _ _ _ _ _ _ _ HO r0 y Ey) as (_ & W). unfold RTs in W. rewrite W. apply den_pars, H.
    - destruct (nth_error (b_P b) p) as [[[y|] q]|] eqn:Ey; try discriminate H. apply andb_prop in HF as [HF Hp].
      apply negb_true_iff in HF. apply Nat.ltb_lt in Hp. unfold omass. rewrite Nat.min_l by lia.
      destruct (or_M _ _ _ _ _ _ _ HO p y q Ey) as (P & v & F1 & F2 & W).
      destruct (proj2 (like_h _ _ _ HL) p P F1) as (P1 & G1 & G2 & _). rewrite G1, G2, F2 by exact HF. cbn.
      unfold RTs in W. rewrite W. apply den_pars, H.
    - change (nth k a (tZ 0) = (if (off + k <? off)%nat then nth (off + k) params (tZ 0) else nth (off + k - off) a (tZ 0))).
      assert (El' : (off + k <? off)%nat = false) by (apply Nat.ltb_ge; lia). rewrite El'. f_equal. lia.
  Qed.
  Definition equal_terms (yn y2 : sT) : Prop := denT rTT vC (sub (as_new c) yn) = denT rTT vC (sub (as_old b) y2).
  Lemma same_den exc yn y2 : literals num -> same_term c b exc yn y2 = true -> (exc = true -> equal_terms yn y2) ->
    denT (rT0 junk (rebuilt c params a)) rC0 yn = denT (at_masses oc o a) vC y2.
  Proof.
    intros H4 H HX. apply andb_prop in H as [H HE]. apply andb_prop in H as [Ho Hn].
    rewrite (den_new _ Hn), (den_old _ Ho). destruct exc; [exact (HX eq_refl)|]. cbn [orb] in HE.
    apply teq_eq in HE. rewrite <- (norm_den _ _ H4), HE. apply norm_den, H4.
  Qed.

  Theorem rebuilt_twin exc : literals num -> same_as_rebuilt exc c = true -> method_ok c k n_set_masses = true ->
    (forall x y y2, In x exc -> b_T b x = Some y -> b_T b2 x = Some y2 -> equal_terms y y2) ->
    twin d b o1 o2.
  Proof.
    intros H4 HSame HMs HX. unfold same_as_rebuilt in HSame. rewrite HB, HB2 in HSame.
    apply andb_prop in HSame as [_ HSame]. apply andb_prop in HSame as [HSame HC3]. apply andb_prop in HSame as [HC1 HC2].
    rewrite forallb_forall in HC1, HC2, HC3.
    pose proof (construct_shaped junk c params oc b EC HB HM) as HS.
    pose proof (construct_shaped junk c _ o2 b E2 HB HM) as S2.
    assert (HK : forall x, known k b x = true -> exists v, o_T oc x = Val v).
    { intros x Hx. exact (construct_known junk c k params oc b x EC HB Hx). }
    pose proof (after_setm c b junk oc o a r o1 b2 HSig HB2 HS HK HL E1) as (D1 & R1).
    pose proof (construct_shape junk c _ o2 b E2 HB) as (D2 & R2).
    assert (S1 : shaped b o1).
    { pose proof (method_quiet junk c k n_set_masses (map GT a) HMs o) as K. rewrite E1 in K.
      exact (shaped_like k b o o1 (shaped_like k b oc o HS HL) K). }
    assert (VT : forall x, known d b x = true -> exists v, o_T o1 x = Val v /\ o_T o2 x = Val v).
    { intros x Hx. specialize (HC1 x (known_member c b x Hx)). rewrite Hx in HC1. cbn [negb orb] in HC1.
      destruct (b_T b x) as [y|] eqn:Ey; [|discriminate HC1]. destruct (b_T b2 x) as [y2|] eqn:Ey2; [|discriminate HC1].
      destruct (or_T _ _ _ _ _ _ _ R1 x y2 Ey2) as (v1 & V1 & W1). destruct (or_T _ _ _ _ _ _ _ R2 x y Ey) as (v2 & V2 & W2).
      exists v1. split; [exact V1|]. rewrite V2. f_equal. unfold RTs in W1, W2. rewrite W1, W2.
      apply (same_den _ _ _ H4 HC1). intros Hm. exact (HX x y y2 (memb_in _ _ Hm) Ey Ey2). }
    split; [exact S1|]. split; [exact S2|].
    exists o1, (fun x => cval (o_T o1 x)), (o_R o1). intros q.
    split; [apply agrees_self; [exact S1|]; intros x Hx; destruct (VT x Hx) as (v & Ev & _); eauto|].
    constructor.
    - intros x Hx. destruct (VT x Hx) as (v & Ev & Ev'). rewrite Ev, Ev'. reflexivity.
    - intros x Hx. cbn in Hx. apply negb_false_iff in Hx. specialize (HC2 x (memb_in _ _ Hx)).
      destruct (b_R b x) as [pr|] eqn:Ey; [|discriminate HC2]. destruct (b_R b2 x) as [pr2|] eqn:Ey2; [|discriminate HC2].
      apply andb_prop in HC2 as [F1 F2].
      destruct (or_R _ _ _ _ _ _ _ R1 x pr2 Ey2) as (A1 & A2). destruct (or_R _ _ _ _ _ _ _ R2 x pr Ey) as (B1 & B2).
      unfold RTs in *. destruct (o_R o1 x) as [m1 w1], (o_R o2 x) as [m2 w2]; cbn in *. subst.
      f_equal; eapply same_den; eauto; discriminate.
    - intros p Hp. destruct (sh_m _ _ S2 p Hp) as (P2 & m2 & F2 & G2). exists P2. split; [exact F2|].
      assert (Hp' : In p (seq 0 4)) by (apply in_seq; lia). specialize (HC3 p Hp').
      destruct (nth_error (b_P b) p) as [[[y|] q1]|] eqn:Ey; try discriminate HC3.
      destruct (nth_error (b_P b2) p) as [[[y2|] q2]|] eqn:Ey2; try discriminate HC3.
      destruct (or_M _ _ _ _ _ _ _ R1 p y2 q2 Ey2) as (X1 & v1 & A1 & A2 & A3).
      destruct (or_M _ _ _ _ _ _ _ R2 p y q1 Ey) as (X2 & v2 & B1 & B2 & B3).
      cbn. unfold omass. rewrite Nat.min_l by lia. rewrite A1, A2. cbn [cval]. rewrite F2 in B1. injection B1 as <-. rewrite B2.
      f_equal. unfold RTs in A3, B3. rewrite A3, B3. eapply same_den; eauto. discriminate.
  Qed.
End Rebuilt.
