(** * The test functions, followed symbolically

    The values of the local variables and the masses of the external particles as terms in
    the literals of the test function, statement by statement. *)
From Coq Require Import Reals QArith ZArith String Ascii Lra Lia.
From Verif Require Import Base Scalar RealNum ParticleReal Linear Integers Utilities Particle Sproduct Propagator Process
  ParticleProofs Ready ParticleClaims SpecSproduct WorldProofs Lang LangFrame Pure PureProofs ReadOnly Sym SMNames
  SMRun SMTwins SMMasses SMAll SMChecks PropsClasses PropsConstruct Harness TestLang TestHarness SMTests.
Close Scope Q_scope.
Close Scope R_scope.
Open Scope st_scope.

(** ** Terms *)
Fixpoint sx (vars : id -> option sT) (e : tx) : option sT :=
  match e with
  | XInt z => Some (TInt z)
  | XLit q => Some (TofD (DLit q))
  | XVar x => vars x
  | XOp a e f => match sx vars e, sx vars f with Some x, Some y => Some (TOp a x y) | _, _ => None end
  | XSqrt e => match sx vars e with Some x => Some (TSqr x) | None => None end
  end.
Fixpoint sxs (vars : id -> option sT) (l : list tx) : option (list sT) :=
  match l with
  | [] => Some []
  | e :: l' => match sx vars e, sxs vars l' with Some x, Some xs => Some (x :: xs) | _, _ => None end
  end.
(** the value of a term without atoms *)
Definition den {num : Num} (y : sT) : T num := denT (fun _ => tZ 0) (fun _ _ => c0) y.

(** terms for atoms *)
Fixpoint tsub (f : tatom -> option sT) (y : sT) : option sT :=
  match y with
  | TInt _ | TofD _ => Some y
  | TOp a x y => match tsub f x, tsub f y with Some x, Some y => Some (TOp a x y) | _, _ => None end
  | TNeg x => option_map TNeg (tsub f x)
  | TSqr x => option_map TSqr (tsub f x)
  | TPw x => option_map TPw (tsub f x)
  | TAt k => f k
  | _ => None
  end.
Definition p_leg (b : pobj snum) (p : nat) : option sT :=
  match nth_error (b_P b) p with Some (m, _) => m | None => None end.
Definition obind {A B} (x : option A) (f : A -> option B) : option B := match x with Some a => f a | None => None end.
Definition f_new (args : list sT) (a : tatom) : option sT :=
  match a with APar k => nth_error args k | _ => None end.
Definition f_set (c : cls) (b : pobj snum) (args margs : list sT) (a : tatom) : option sT :=
  match a with
  | AMem x => if k_T (mass_mask c) x then None else obind (b_T b x) (tsub (f_new args))
  | APar k => nth_error margs k
  | AMass p => if k_P (mass_mask c) p then None else obind (p_leg b p) (tsub (f_new args))
  | _ => None
  end.
Definition legs (f : tatom -> option sT) (b : pobj snum) : option (list sT) :=
  match obind (p_leg b 0) (tsub f), obind (p_leg b 1) (tsub f), obind (p_leg b 2) (tsub f), obind (p_leg b 3) (tsub f) with
  | Some a, Some b, Some c, Some d => Some [a; b; c; d]
  | _, _, _, _ => None
  end.

(** equal up to the way integers are written: 1 and 1.0 *)
Definition qint (q : Q) : option Z :=
  if Pos.eqb (QArith_base.Qden q) 1 && (Z.eqb (QArith_base.Qnum q) 0 || Z.eqb (QArith_base.Qnum q) 1) then Some (QArith_base.Qnum q) else None.
Definition as_int (y : sT) : option Z :=
  match y with TInt z => Some z | TofD (DLit q) => qint q | _ => None end.
Definition qeqb (q r : Q) : bool := Z.eqb (QArith_base.Qnum q) (QArith_base.Qnum r) && Pos.eqb (QArith_base.Qden q) (QArith_base.Qden r).
Definition aeqb (a b : aop) : bool :=
  match a, b with Add, Add | Sub, Sub | Mul, Mul | Div, Div => true | _, _ => false end.
Fixpoint teq (x y : sT) : bool :=
  match as_int x, as_int y with
  | Some z, Some w => Z.eqb z w
  | _, _ =>
    match x, y with
    | TofD (DLit q), TofD (DLit r) => qeqb q r
    | TOp a x1 x2, TOp b y1 y2 => aeqb a b && teq x1 y1 && teq x2 y2
    | TNeg x, TNeg y | TSqr x, TSqr y | TPw x, TPw y => teq x y
    | _, _ => false
    end
  end.
(** the integers 0 and 1 and the literals 0.0 and 1.0 agree *)
Definition int_literals (num : Num) : Prop := forall z : Z, z = 0%Z \/ z = 1%Z -> tZ (n:=num) z = lit (z # 1).

Section Terms.
  Context {num : Num}.
  Lemma sx_sound (sv : id -> option sT) (vars : id -> option (T num)) :
    (forall x y, sv x = Some y -> vars x = Some (den y)) ->
    forall e y, sx sv e = Some y -> xeval vars e = Ok (den y).
  Proof.
    intros H. induction e; cbn [sx xeval]; intros y E.
    - injection E as <-. reflexivity.
    - injection E as <-. reflexivity.
    - rewrite (H _ _ E). reflexivity.
    - destruct (sx sv e1) as [y1|]; [|discriminate]. destruct (sx sv e2) as [y2|]; [|discriminate]. injection E as <-.
      rewrite (IHe1 _ eq_refl), (IHe2 _ eq_refl). reflexivity.
    - destruct (sx sv e) as [y1|]; [|discriminate]. injection E as <-. rewrite (IHe _ eq_refl). reflexivity.
  Qed.
  Lemma sxs_sound (sv : id -> option sT) (vars : id -> option (T num)) :
    (forall x y, sv x = Some y -> vars x = Some (den y)) ->
    forall l ys, sxs sv l = Some ys -> xevals vars l = Ok (map den ys).
  Proof.
    intros H. induction l as [|e l IH]; cbn [sxs xevals]; intros ys E; [injection E as <-; reflexivity|].
    destruct (sx sv e) as [y1|] eqn:E1; [|discriminate]. destruct (sxs sv l) as [y2|]; [|discriminate]. injection E as <-.
    rewrite (sx_sound sv vars H e y1 E1), (IH _ eq_refl). reflexivity.
  Qed.
  Lemma tsub_sound (f : tatom -> option sT) (rT : tatom -> T num) rC :
    (forall a y, f a = Some y -> rT a = den y) ->
    forall y y', tsub f y = Some y' -> denT rT rC y = den y'.
  Proof.
    intros H. induction y; cbn [tsub]; intros y' E; try discriminate E.
    - injection E as <-. reflexivity.
    - injection E as <-. reflexivity.
    - destruct (tsub f y1) as [z1|]; [|discriminate]. destruct (tsub f y2) as [z2|]; [|discriminate]. injection E as <-.
      unfold den in *. cbn [denT]. rewrite (IHy1 _ eq_refl), (IHy2 _ eq_refl). reflexivity.
    - destruct (tsub f y) as [z|]; [|discriminate]. injection E as <-. unfold den in *. cbn [denT]. rewrite (IHy _ eq_refl). reflexivity.
    - destruct (tsub f y) as [z|]; [|discriminate]. injection E as <-. unfold den in *. cbn [denT]. rewrite (IHy _ eq_refl). reflexivity.
    - destruct (tsub f y) as [z|]; [|discriminate]. injection E as <-. unfold den in *. cbn [denT]. rewrite (IHy _ eq_refl). reflexivity.
    - apply H, E.
  Qed.
  Lemma as_int_sound : int_literals num -> forall y z, as_int y = Some z -> den y = tZ (n:=num) z.
  Proof.
    intros HI y z. destruct y; try discriminate; cbn [as_int].
    - intros [= ->]. reflexivity.
    - destruct d; try discriminate. unfold qint. destruct (Pos.eqb_spec (QArith_base.Qden q) 1) as [E|]; [|discriminate]. cbn [andb].
      destruct (Z.eqb (QArith_base.Qnum q) 0 || Z.eqb (QArith_base.Qnum q) 1) eqn:EN; [|discriminate].
      intros [= <-]. rewrite HI. 2: { apply orb_prop in EN as [EN|EN]; apply Z.eqb_eq in EN; auto. } destruct q as [n d]. cbn in E. subst d. reflexivity.
  Qed.
  Lemma teq_sound : int_literals num -> forall x y, teq x y = true -> den (num:=num) x = den y.
  Proof.
    intros HI. 
    assert (K : forall x y z w, as_int x = Some z -> as_int y = Some w -> Z.eqb z w = true -> den (num:=num) x = den y).
    { intros x y z w Hx Hy E. apply Z.eqb_eq in E. subst. rewrite (as_int_sound HI x w Hx), (as_int_sound HI y w Hy). reflexivity. }
    induction x; intros y0 E; cbn [teq] in E; destruct (as_int y0) as [w|] eqn:Ey; cbn [as_int] in E.
    all: try (destruct y0; discriminate E).
    all: try discriminate E.
    - exact (K (TInt z) y0 z w eq_refl Ey E).
    - destruct d; try (destruct y0; discriminate E). destruct (qint q) eqn:Eq; [exact (K (TofD (DLit q)) y0 _ w Eq Ey E)|].
      destruct y0; try discriminate E. destruct d; try discriminate E. apply andb_prop in E as [E1 E2].
      apply Z.eqb_eq in E1. apply Pos.eqb_eq in E2. destruct q, q0. cbn in E1, E2. subst. reflexivity.
    - destruct d; try (destruct y0; discriminate E). 
      assert (E' : match y0 with TofD (DLit r) => qeqb q r | _ => false end = true) by (destruct (qint q); destruct y0; exact E).
      destruct y0; try discriminate E'. destruct d; try discriminate E'. apply andb_prop in E' as [E1 E2].
      apply Z.eqb_eq in E1. apply Pos.eqb_eq in E2. destruct q, q0. cbn in E1, E2. subst. reflexivity.
    - destruct y0; try discriminate E. apply andb_prop in E as [E E2]. apply andb_prop in E as [E0 E1].
      unfold den in *. cbn [denT]. rewrite (IHx1 _ E1), (IHx2 _ E2). destruct a, a0; try discriminate E0; reflexivity.
    - destruct y0; try discriminate E. apply andb_prop in E as [E E2]. apply andb_prop in E as [E0 E1].
      unfold den in *. cbn [denT]. rewrite (IHx1 _ E1), (IHx2 _ E2). destruct a, a0; try discriminate E0; reflexivity.
    - destruct y0; try discriminate E. unfold den in *. cbn [denT]. rewrite (IHx _ E). reflexivity.
    - destruct y0; try discriminate E. unfold den in *. cbn [denT]. rewrite (IHx _ E). reflexivity.
    - destruct y0; try discriminate E. unfold den in *. cbn [denT]. rewrite (IHx _ E). reflexivity.
    - destruct y0; try discriminate E. unfold den in *. cbn [denT]. rewrite (IHx _ E). reflexivity.
    - destruct y0; try discriminate E. unfold den in *. cbn [denT]. rewrite (IHx _ E). reflexivity.
    - destruct y0; try discriminate E. unfold den in *. cbn [denT]. rewrite (IHx _ E). reflexivity.
  Qed.
End Terms.

(** ** Bounds for terms without atoms: (lo, hi) in units of 10^-12, both not negative *)
Definition unit12 : Z := 1000000000000%Z.
Definition nonneg (x : Z * Z) : option (Z * Z) := if (0 <=? fst x)%Z then Some x else None.
Fixpoint ival (y : sT) : option (Z * Z) :=
  match y with
  | TInt z => nonneg (z * unit12, z * unit12)%Z
  | TofD (DLit q) =>
      let n := (QArith_base.Qnum q * unit12)%Z in let d := Zpos (QArith_base.Qden q) in
      nonneg (n / d, n / d + 1)%Z
  | TOp a x y =>
      match ival x, ival y with
      | Some (l1, h1), Some (l2, h2) =>
          match a with
          | Add => Some (l1 + l2, h1 + h2)%Z
          | Sub => nonneg (l1 - h2, h1 - l2)%Z
          | Mul => Some (l1 * l2 / unit12, h1 * h2 / unit12 + 1)%Z
          | Div => if (0 <? l2)%Z then Some (l1 * unit12 / h2, h1 * unit12 / l2 + 1)%Z else None
          end
      | _, _ => None
      end
  | TSqr x => match ival x with Some (l, h) => Some (Z.sqrt (l * unit12), Z.sqrt (h * unit12) + 1)%Z | None => None end
  | _ => None
  end.

(** ** What is checked where the harness is called *)
Definition leg_ok (c : cls) (p : nat) (y : sT) : bool :=
  match leg c p with
  | Some true => match as_int y with Some z => Z.eqb z 0 | None => false end
  | Some false => match ival y with Some (l, _) => (0 <? l)%Z | None => false end
  | None => true
  end.
Definition energy (p m : sT) : sT := TSqr (TOp Add (TOp Mul p p) (TOp Mul m m)).
Definition above (m1 m2 m3 m4 p : sT) : bool :=
  match ival m1, ival m2, ival m3, ival m4 with
  | Some _, Some _, Some (_, h3), Some (_, h4) =>
      match ival p, ival (energy p m1), ival (energy p m2) with
      | Some _, Some (l1, _), Some (l2, _) => (0 <? l1 + l2)%Z && (h3 + h4 <=? l1 + l2)%Z
      | _, _, _ => false
      end
  | _, _, _, _ => false
  end.
Definition kin_ok (c : cls) (m1 m2 m3 m4 p : sT) : bool :=
  leg_ok c 0 m1 && leg_ok c 1 m2 && leg_ok c 2 m3 && leg_ok c 3 m4 && above m1 m2 m3 m4 p.

(** no statement returns a complex number *)
Fixpoint noC (s : stmt) : bool :=
  match s with
  | SSeq a b | SIf _ a b => noC a && noC b
  | SFor _ _ _ _ a => noC a
  | SReturnC _ => false
  | _ => true
  end.
Definition variant (c : cls) (f : id) : bool :=
  match find_meth c f with
  | Some fm => match m_params fm with [] => noC (m_body fm) && negb (is_setter f) | _ => false end
  | None => false
  end.

(** ** The statements *)
Record sst : Type := mkSst { ss_vars : id -> option sT; ss_new : list sT; ss_m : option (list sT) }.
Definition sstep (c : cls) (b b2 : pobj snum) (st : tstmt) (s : sst) : option sst :=
  match st with
  | TLoc x e => option_map (fun y => mkSst (upd (ss_vars s) x (Some y)) (ss_new s) (ss_m s)) (sx (ss_vars s) e)
  | TNew args =>
      obind (sxs (ss_vars s) args) (fun ys =>
      if Nat.eqb (length ys) (length (c_params c))
      then option_map (fun ms => mkSst (ss_vars s) ys (Some ms)) (legs (f_new ys) b) else None)
  | TSet m args =>
      obind (sxs (ss_vars s) args) (fun ys =>
      match find_meth c n_set_masses, ss_m s with
      | Some f, Some _ =>
          if Pos.eqb m n_set_masses && Nat.eqb (length ys) (length (m_params f))
          then option_map (fun ms => mkSst (ss_vars s) (ss_new s) (Some ms)) (legs (f_set c b (ss_new s) ys) b2) else None
      | _, _ => None
      end)
  | TRuns m1 m2 m3 m4 p runs =>
      match sxs (ss_vars s) [m1; m2; m3; m4; p], ss_m s with
      | Some [m1; m2; m3; m4; p], Some [n1; n2; n3; n4] =>
          if teq m1 n1 && teq m2 n2 && teq m3 n3 && teq m4 n4 && kin_ok c m1 m2 m3 m4 p &&
             forallb (fun r => variant c (snd (fst r))) runs
          then Some s else None
      | _, _ => None
      end
  end.
Fixpoint ssteps (c : cls) (b b2 : pobj snum) (l : list tstmt) (s : sst) : option sst :=
  match l with [] => Some s | st :: l' => obind (sstep c b b2 st s) (ssteps c b b2 l') end.
Definition sstart : sst := mkSst (fun _ => None) [] None.
Definition nruns (l : list tstmt) : Z :=
  fold_right (fun st n => match st with TRuns _ _ _ _ _ r => Z.of_nat (length r) + n | _ => n end)%Z 0%Z l.
Definition is_eeAZ (t : test) : bool := String.eqb (c_name (t_cls t)) "eeAZ".
Definition check63 (t : test) : bool :=
  match shape (t_cls t) with
  | POk b => match ssteps (t_cls t) b (match setm (t_cls t) b with POk b2 => b2 | _ => b end) (t_prog t) sstart with
             | Some _ => (nruns (t_prog t) <=? 1000000)%Z
             | None => false
             end
  | _ => false
  end.
