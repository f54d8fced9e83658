(** * Polynomials with rules

    Used in proofs only.  Polynomials with integer coefficients in the variables [lv]: [WN l a b]
    is a + v b for the variable v of [l], which comes before the variables of a.  A variable may
    have a rule, the value of its square; products are reduced by the rules.  [WF] is a product
    or sum that was not carried out, [WR] an inverse. *)
From Coq Require Import ZArith List Bool Reals Lra Lia.
From Coquelicot Require Import Complex.
Import ListNotations.
Open Scope list_scope.

Inductive lv : Type :=
  v0 | v1 | v2 | v3 | v4 | v5 | v6 | v7 | v8 | v9 | v10 | v11 | v12 | v13 | v14 | v15
| v16 | v17 | v18 | v19 | v20 | v21 | v22 | v23 | v24 | v25 | v26 | v27 | v28 | v29 | v30 | v31.
Definition lvrank (l : lv) : nat :=
  match l with
  | v0 => 0 | v1 => 1 | v2 => 2 | v3 => 3 | v4 => 4 | v5 => 5 | v6 => 6 | v7 => 7 | v8 => 8 | v9 => 9 | v10 => 10 | v11 => 11
  | v12 => 12 | v13 => 13 | v14 => 14 | v15 => 15 | v16 => 16 | v17 => 17 | v18 => 18 | v19 => 19 | v20 => 20 | v21 => 21
  | v22 => 22 | v23 => 23 | v24 => 24 | v25 => 25 | v26 => 26 | v27 => 27 | v28 => 28 | v29 => 29 | v30 => 30 | v31 => 31 end.
Ltac mk_lcmp := intros a b; destruct a eqn:Ea; destruct b eqn:Eb;
  match type of Ea with _ = ?x => match type of Eb with _ = ?y =>
    let r := eval vm_compute in (Nat.compare (lvrank x) (lvrank y)) in clear Ea Eb; exact r end end.
Definition lcmp0 : lv -> lv -> comparison := ltac:(mk_lcmp).
Definition lcmp : lv -> lv -> comparison := Eval cbv in lcmp0.
Lemma lcmp_eq a b : lcmp a b = Eq -> a = b.
Proof. destruct a; destruct b; intros H; first [discriminate H|reflexivity]. Qed.

Inductive tow : Type := WL (z : Z) | WN (l : lv) (a b : tow) | WF (sum : bool) (a b : tow) | WR (a : tow).
Definition wvar (l : lv) : tow := WN l (WL 0) (WL 1).
Definition wmk (l : lv) (a b : tow) : tow := match b with WL Z0 => a | _ => WN l a b end.
Fixpoint waddc (z : Z) (p : tow) : tow := match p with WL y => WL (z + y) | WN l a b => WN l (waddc z a) b | WF _ _ _ | WR _ => WF true (WL z) p end.
Definition waddz (z : Z) (p : tow) : tow := match z with Z0 => p | _ => waddc z p end.
Fixpoint wadd (p : tow) {struct p} : tow -> tow :=
  match p with
  | WL z => waddz z
  | WN l a b =>
      fix aux (q : tow) : tow :=
        match q with
        | WL z => waddz z p
        | WN l' a' b' =>
            match lcmp l l' with
            | Eq => wmk l (wadd a a') (wadd b b')
            | Lt => WN l (wadd a q) b
            | Gt => WN l' (aux a') b'
            end
        | WF _ _ _ | WR _ => WF true p q
        end
  | WF _ _ _ | WR _ => WF true p
  end.
Fixpoint wscalec (z : Z) (p : tow) : tow := match p with WL y => WL (z * y) | WN l a b => WN l (wscalec z a) (wscalec z b) | WF _ _ _ | WR _ => WF false (WL z) p end.
Definition wscale (z : Z) (p : tow) : tow := match z with Z0 => WL Z0 | Zpos xH => p | _ => wscalec z p end.
Definition wneg (p : tow) : tow := wscalec (-1) p.
Definition wsub (p q : tow) : tow := wadd p (wneg q).
Definition wshift (l : lv) (p : tow) : tow := match p with WL Z0 => p | _ => WN l (WL 0) p end.

Section Mul.
  Variable rule : lv -> option tow.
  Fixpoint wmul (n : nat) (p q : tow) {struct n} : tow :=
    match n with O => WF false p q | S n =>
      match p with
      | WL z => wscale z q
      | WN l a b =>
          match q with
          | WL z => wscale z p
          | WN l' a' b' =>
              match lcmp l l' with
              | Lt => wmk l (wmul n a q) (wmul n b q)
              | Gt => wmk l' (wmul n p a') (wmul n p b')
              | Eq => match rule l with
                      | None => wmk l (wmul n a a') (wadd (wadd (wmul n a b') (wmul n b a')) (wshift l (wmul n b b')))
                      | Some r => wmk l (wadd (wmul n a a') (wmul n r (wmul n b b'))) (wadd (wmul n a b') (wmul n b a'))
                      end
              end
          | WF _ _ _ | WR _ => WF false p q
          end
      | WF _ _ _ | WR _ => WF false p q
      end
    end.
End Mul.
Definition wfuel : nat := 100.
Fixpoint wiszero (p : tow) : bool := match p with WL Z0 => true | WN _ a b => if wiszero a then wiszero b else false | _ => false end.

(** ** Inverses: a variable for 1/d *)
Section Zero.
  Variable m : tow -> tow -> tow.
  (** p = n / d^k in the variable 1/d of [l] *)
  Fixpoint wclear (l : lv) (d : tow) (p : tow) : tow * tow :=
    match p with
    | WN l' a b => match lcmp l l' with
                  | Eq => let '(n, k) := wclear l d b in let k' := m k d in (wadd (m a k') n, k')
                  | _ => (p, WL 1) end
    | _ => (p, WL 1)
    end.
  Variable inv : lv -> option tow.
  Fixpoint wzt (n : nat) (p : tow) : bool :=
    match n with O => false | S n =>
      match p with
      | WL Z0 => true
      | WN l a b => match inv l with
                   | Some d => wzt n (fst (wclear l d p))
                   | None => if wzt n a then wzt n b else false end
      | _ => false
      end
    end.
End Zero.

(** ** Values *)
Section Values.
  Open Scope C_scope.
  Variable rho : lv -> C.
  Fixpoint weval (p : tow) : C :=
    match p with
    | WL z => RtoC (IZR z)
    | WN l a b => weval a + rho l * weval b
    | WF true a b => weval a + weval b
    | WF false a b => weval a * weval b
    | WR a => / weval a
    end.
  Lemma wmk_ok l a b : weval (wmk l a b) = weval a + rho l * weval b.
  Proof. unfold wmk. destruct b as [[| |]| | |]; try reflexivity. cbn [weval]. change (IZR 0) with 0%R. ring. Qed.
  Lemma waddc_ok z p : weval (waddc z p) = RtoC (IZR z) + weval p.
  Proof.
    induction p as [y|l a IHa b IHb|s a IHa b IHb|a IHa]; cbn [waddc weval]; [|rewrite IHa; ring|reflexivity|reflexivity].
    rewrite plus_IZR, RtoC_plus. reflexivity.
  Qed.
  Lemma waddz_ok z p : weval (waddz z p) = RtoC (IZR z) + weval p.
  Proof. unfold waddz. destruct z as [|z|z]; try apply waddc_ok. change (IZR 0) with 0%R. ring. Qed.
  Lemma wadd_ok p : forall q, weval (wadd p q) = weval p + weval q.
  Proof.
    induction p as [z|l a IHa b IHb|s a IHa b IHb|a IHa]; [exact (waddz_ok z)| |reflexivity|reflexivity].
    induction q as [z|l' a' IHa' b' IHb'|s a' IHa' b' IHb'|a' IHa']; [|cbn [wadd]|reflexivity|reflexivity].
    - cbn [wadd]. rewrite waddz_ok. cbn [weval]. ring.
    - destruct (lcmp l l') eqn:E.
      + apply lcmp_eq in E. subst l'. rewrite wmk_ok, IHa, IHb. cbn [weval]. ring.
      + cbn [weval]. rewrite IHa. cbn [weval]. ring.
      + cbn [wadd] in IHa'. cbn [weval]. rewrite IHa'. cbn [weval]. ring.
  Qed.
  Lemma wscalec_ok z p : weval (wscalec z p) = RtoC (IZR z) * weval p.
  Proof.
    induction p as [y|l a IHa b IHb|s a IHa b IHb|a IHa]; cbn [wscalec weval]; [|rewrite IHa, IHb; ring|reflexivity|reflexivity].
    rewrite mult_IZR, RtoC_mult. reflexivity.
  Qed.
  Lemma wscale_ok z p : weval (wscale z p) = RtoC (IZR z) * weval p.
  Proof.
    unfold wscale. destruct z as [|[z|z|]|z]; try apply wscalec_ok; [cbn [weval]; change (IZR 0) with 0%R; ring|].
    change (IZR 1) with 1%R. ring.
  Qed.
  Lemma wneg_ok p : weval (wneg p) = - weval p.
  Proof. unfold wneg. rewrite wscalec_ok. replace (RtoC (IZR (-1))) with (- RtoC 1) by (rewrite <- RtoC_opp; f_equal; reflexivity). ring. Qed.
  Lemma wsub_ok p q : weval (wsub p q) = weval p - weval q.
  Proof. unfold wsub. rewrite wadd_ok, wneg_ok. ring. Qed.
  Lemma wshift_ok l p : weval (wshift l p) = rho l * weval p.
  Proof. unfold wshift. destruct p as [[| |]| | |]; cbn [weval]; change (IZR 0) with 0%R; ring. Qed.
  Lemma wvar_ok l : weval (wvar l) = rho l.
  Proof. cbn [wvar weval]. change (IZR 0) with 0%R. change (IZR 1) with 1%R. ring. Qed.
  Variable rule : lv -> option tow.
  Hypothesis HR : forall l r, rule l = Some r -> rho l * rho l = weval r.
  Lemma wmul_ok n : forall p q, weval (wmul rule n p q) = weval p * weval q.
  Proof.
    induction n as [|n IH]; intros p q; [reflexivity|]. cbn [wmul].
    destruct p as [z|l a b|s a b|a]; [apply wscale_ok| |reflexivity|reflexivity].
    destruct q as [z|l' a' b'|s a' b'|a']; [rewrite wscale_ok; cbn [weval]; ring| |reflexivity|reflexivity].
    destruct (lcmp l l') eqn:E.
    - apply lcmp_eq in E. subst l'. destruct (rule l) as [r|] eqn:Er.
      + rewrite wmk_ok, !wadd_ok, !IH. cbn [weval]. rewrite <- (HR l r Er). ring.
      + rewrite wmk_ok, !wadd_ok, wshift_ok, !IH. cbn [weval]. ring.
    - rewrite wmk_ok, !IH. cbn [weval]. ring.
    - rewrite wmk_ok, !IH. cbn [weval]. ring.
  Qed.
  Lemma wiszero_ok p : wiszero p = true -> weval p = RtoC 0.
  Proof.
    induction p as [z|l a IHa b IHb|s a IHa b IHb|a IHa]; cbn [wiszero]; intros H; [|destruct (wiszero a); [|discriminate H]|discriminate H|discriminate H].
    - destruct z; try discriminate H. reflexivity.
    - cbn [weval]. rewrite (IHa eq_refl), (IHb H). ring.
  Qed.
  Variable m : tow -> tow -> tow.
  Hypothesis Hm : forall p q, weval (m p q) = weval p * weval q.
  Lemma wclear_ok l d : rho l * weval d = RtoC 1 -> forall p, let '(n, k) := wclear m l d p in weval p * weval k = weval n /\ weval k <> RtoC 0.
  Proof.
    intros Hd.
    assert (H1 : weval (WL 1) <> RtoC 0) by (cbn [weval]; intros E; apply RtoC_inj in E; lra).
    assert (Hd0 : weval d <> RtoC 0).
    { intros E. rewrite E in Hd. assert (K : RtoC 0 = RtoC 1) by (rewrite <- Hd; ring). apply RtoC_inj in K. lra. }
    induction p as [z|l' a IHa b IHb|s a IHa b IHb|a IHa]; try (cbn [wclear]; split; [cbn [weval]; ring|exact H1]).
    cbn [wclear]. destruct (lcmp l l') eqn:E; try (split; [cbn [weval]; ring|exact H1]).
    apply lcmp_eq in E. subst l'. destruct (wclear m l d b) as [n k]. destruct IHb as [IHb Hk]. cbv zeta.
    rewrite wadd_ok, !Hm. split.
    - cbn [weval]. rewrite <- IHb.
      transitivity (weval a * (weval k * weval d) + (rho l * weval d) * (weval b * weval k)); [ring|rewrite Hd; ring].
    - apply Cmult_neq_0; assumption.
  Qed.
  Variable inv : lv -> option tow.
  Hypothesis HI : forall l d, inv l = Some d -> rho l * weval d = RtoC 1.
  Lemma wzt_ok n : forall p, wzt m inv n p = true -> weval p = RtoC 0.
  Proof.
    induction n as [|n IH]; intros p H; [discriminate H|]. cbn [wzt] in H.
    destruct p as [z|l a b|s a b|a]; [| |discriminate H|discriminate H].
    - destruct z; try discriminate H. reflexivity.
    - destruct (inv l) as [d|] eqn:E.
      + pose proof (wclear_ok l d (HI l d E) (WN l a b)) as K. destruct (wclear m l d (WN l a b)) as [x k]. destruct K as [K Hk].
        cbn [fst] in H. rewrite (IH _ H) in K.
        destruct (Ceq_dec (weval (WN l a b)) (RtoC 0)) as [E0|E0]; [exact E0|]. exfalso.
        exact (Cmult_neq_0 _ _ E0 Hk K).
      + destruct (wzt m inv n a) eqn:Ea; [|discriminate H]. cbn [weval]. rewrite (IH _ Ea), (IH _ H). ring.
  Qed.
End Values.
