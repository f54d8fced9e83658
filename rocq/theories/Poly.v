(** * Polynomials with integer coefficients in numbered complex variables

    Used in proofs only.  A monomial is a sorted list of variables, a polynomial a list of
    terms; [same] decides whether two of them are equal, by adding up the coefficients of every
    monomial in a tree. *)
From Coq Require Import ZArith List Reals Lia.
From Coquelicot Require Import Complex.
Import ListNotations.
Open Scope list_scope.

Definition mono : Type := list positive.
Definition poly : Type := list (Z * mono).

Fixpoint mmerge (m : mono) : mono -> mono :=
  match m with
  | [] => fun m' => m'
  | x :: l => fix go (m' : mono) : mono :=
      match m' with
      | [] => m
      | y :: l' => match Pos.compare x y with Gt => y :: go l' | _ => x :: mmerge l m' end
      end
  end.
Definition pmono (m : mono) : poly := [(1%Z, m)].
Definition pone : poly := pmono [].
Definition pneg (p : poly) : poly := map (fun t => (- fst t, snd t)%Z) p.
Definition padd (p p' : poly) : poly := p ++ p'.
Definition tmul (t : Z * mono) (p : poly) : poly := map (fun u => (fst t * fst u, mmerge (snd t) (snd u))%Z) p.
Definition pmul (p p' : poly) : poly := flat_map (fun t => tmul t p') p.

(** A tree of monomials: the branches are the bits of a variable, the last one is its end.  All
    matches are on results, so that they are evaluated at once. *)
Inductive trie : Type := TL | TN (v : Z) (o i h : trie).
Fixpoint insp (k : trie -> trie) (x : positive) (t : trie) {struct x} : trie :=
  match x with
  | xH =>
      match t with
      | TL => match k TL with TL => TL | r => TN 0 TL TL r end
      | TN v o i h => match k h with TL => TN v o i TL | r => TN v o i r end
      end
  | xO x =>
      match t with
      | TL => match insp k x TL with TL => TL | r => TN 0 r TL TL end
      | TN v o i h => match insp k x o with TL => TN v TL i h | r => TN v r i h end
      end
  | xI x =>
      match t with
      | TL => match insp k x TL with TL => TL | r => TN 0 TL r TL end
      | TN v o i h => match insp k x i with TL => TN v o TL h | r => TN v o r h end
      end
  end.
Fixpoint ins (z : Z) (m : mono) : trie -> trie :=
  match m with
  | [] => fun t =>
      match t with
      | TL => match z with Z0 => TN Z0 TL TL TL | _ => TN z TL TL TL end
      | TN v o i h => match (v + z)%Z with Z0 => TN Z0 o i h | k => TN k o i h end
      end
  | x :: m => insp (ins z m) x
  end.
Fixpoint insall (p : poly) (t : trie) : trie :=
  match t with
  | TL => match p with [] => TL | u :: p' => insall p' (ins (fst u) (snd u) TL) end
  | TN v o i h => match p with [] => t | u :: p' => insall p' (ins (fst u) (snd u) t) end
  end.
Fixpoint tnil (t : trie) : bool :=
  match t with
  | TL => true
  | TN v o i h => if Z.eqb v 0 then if tnil o then if tnil i then tnil h else false else false else false
  end.
Definition same (p q : poly) : bool := tnil (insall (pneg p) (insall q TL)).

(** ** Values *)
Open Scope C_scope.
Section Eval.
  Variable rho : positive -> C.
  Definition meval (m : mono) : C := fold_right (fun x z => rho x * z) (RtoC 1) m.
  Definition peval (p : poly) : C := fold_right (fun t z => RtoC (IZR (fst t)) * meval (snd t) + z) (RtoC 0) p.

  Lemma meval_merge : forall m m', meval (mmerge m m') = meval m * meval m'.
  Proof.
    induction m as [|x m IH]; intros m'; [change (meval m' = RtoC 1 * meval m'); ring|]. induction m' as [|y m' IH']; [change (meval (x :: m) = meval (x :: m) * RtoC 1); ring|].
    cbn [mmerge]. destruct (Pos.compare x y) eqn:E; cbn [meval fold_right].
    1, 2: fold (meval (mmerge m (y :: m'))); rewrite IH; cbn [meval fold_right]; fold (meval m) (meval m'); ring.
    change (rho y * meval (mmerge (x :: m) m') = rho x * meval m * (rho y * meval m')). rewrite IH'. cbn [meval fold_right]. fold (meval m). ring.
  Qed.
  Lemma peval_cons t p : peval (t :: p) = RtoC (IZR (fst t)) * meval (snd t) + peval p.
  Proof. reflexivity. Qed.
  Lemma peval_mono m : peval (pmono m) = meval m.
  Proof. unfold pmono. rewrite peval_cons. cbn [fst snd peval fold_right]. ring. Qed.
  Lemma peval_add p p' : peval (padd p p') = peval p + peval p'.
  Proof.
    unfold padd. induction p as [|t p IH]; cbn [app]; [cbn; ring|]. rewrite !peval_cons, IH. ring.
  Qed.
  Lemma peval_neg p : peval (pneg p) = - peval p.
  Proof.
    unfold pneg. induction p as [|t p IH]; cbn [map]; [cbn; ring|]. rewrite !peval_cons, IH. cbn [fst snd].
    rewrite opp_IZR, RtoC_opp. ring.
  Qed.
  Lemma peval_tmul t p : peval (tmul t p) = RtoC (IZR (fst t)) * meval (snd t) * peval p.
  Proof.
    unfold tmul. induction p as [|u p IH]; cbn [map]; [cbn; ring|]. rewrite !peval_cons, IH. cbn [fst snd].
    rewrite mult_IZR, RtoC_mult, meval_merge. ring.
  Qed.
  Lemma peval_mul p p' : peval (pmul p p') = peval p * peval p'.
  Proof.
    unfold pmul. induction p as [|t p IH]; cbn [flat_map]; [cbn; ring|].
    change (peval (padd (tmul t p') (flat_map (fun t => tmul t p') p)) = peval (t :: p) * peval p').
    rewrite peval_add, peval_tmul, IH, peval_cons. ring.
  Qed.
  Fixpoint tval (acc : positive -> positive) (t : trie) : C :=
    match t with
    | TL => RtoC 0
    | TN v o i h => RtoC (IZR v) + tval (fun x => acc (xO x)) o + tval (fun x => acc (xI x)) i + rho (acc xH) * tval (fun x => x) h
    end.
  Lemma neg_of (a b : C) : RtoC 0 = a + b -> a = - b.
  Proof. intros H. transitivity (a + b + - b); [ring|]. rewrite <- H. ring. Qed.
  Lemma tval_insp k d : (forall t, tval (fun x => x) (k t) = tval (fun x => x) t + d) ->
    forall x acc t, tval acc (insp k x t) = tval acc t + rho (acc x) * d.
  Proof.
    intros Hk. induction x as [x IH|x IH|]; intros acc t; cbn [insp].
    - destruct t as [|v o i h].
      + specialize (IH (fun x => acc (xI x)) TL). destruct (insp k x TL) as [|v' o' i' h']; [cbn [tval] in IH |- *; exact IH|].
        change (tval acc (TN 0 TL (TN v' o' i' h') TL)) with (RtoC 0 + RtoC 0 + tval (fun x => acc (xI x)) (TN v' o' i' h') + rho (acc xH) * RtoC 0).
        rewrite IH. cbn [tval]. ring.
      + specialize (IH (fun x => acc (xI x)) i). destruct (insp k x i) as [|v' o' i' h'] eqn:E.
        * cbn [tval]. cbn [tval] in IH. rewrite (neg_of _ _ IH). ring.
        * change (tval acc (TN v o (TN v' o' i' h') h)) with (RtoC (IZR v) + tval (fun x => acc (xO x)) o + tval (fun x => acc (xI x)) (TN v' o' i' h') + rho (acc xH) * tval (fun x => x) h).
          rewrite IH. cbn [tval]. ring.
    - destruct t as [|v o i h].
      + specialize (IH (fun x => acc (xO x)) TL). destruct (insp k x TL) as [|v' o' i' h']; [cbn [tval] in IH |- *; exact IH|].
        change (tval acc (TN 0 (TN v' o' i' h') TL TL)) with (RtoC 0 + tval (fun x => acc (xO x)) (TN v' o' i' h') + RtoC 0 + rho (acc xH) * RtoC 0).
        rewrite IH. cbn [tval]. ring.
      + specialize (IH (fun x => acc (xO x)) o). destruct (insp k x o) as [|v' o' i' h'] eqn:E.
        * cbn [tval]. cbn [tval] in IH. rewrite (neg_of _ _ IH). ring.
        * change (tval acc (TN v (TN v' o' i' h') i h)) with (RtoC (IZR v) + tval (fun x => acc (xO x)) (TN v' o' i' h') + tval (fun x => acc (xI x)) i + rho (acc xH) * tval (fun x => x) h).
          rewrite IH. cbn [tval]. ring.
    - destruct t as [|v o i h].
      + specialize (Hk TL). destruct (k TL) as [|v' o' i' h']; [cbn [tval] in Hk |- *; rewrite (neg_of _ _ (eq_trans Hk (Cplus_comm _ _))); ring|].
        change (tval acc (TN 0 TL TL (TN v' o' i' h'))) with (RtoC 0 + RtoC 0 + RtoC 0 + rho (acc xH) * tval (fun x => x) (TN v' o' i' h')).
        rewrite Hk. cbn [tval]. ring.
      + specialize (Hk h). destruct (k h) as [|v' o' i' h'].
        * cbn [tval]. cbn [tval] in Hk. rewrite (neg_of _ _ Hk). ring.
        * change (tval acc (TN v o i (TN v' o' i' h'))) with (RtoC (IZR v) + tval (fun x => acc (xO x)) o + tval (fun x => acc (xI x)) i + rho (acc xH) * tval (fun x => x) (TN v' o' i' h')).
          rewrite Hk. cbn [tval]. ring.
  Qed.
  Lemma tval_ins z : forall m t, tval (fun x => x) (ins z m t) = tval (fun x => x) t + RtoC (IZR z) * meval m.
  Proof.
    induction m as [|x m IH]; intros t.
    - cbn [ins meval fold_right]. destruct t as [|v o i h].
      + transitivity (tval (fun x => x) (TN z TL TL TL)); [destruct z; reflexivity|]. cbn [tval]. ring.
      + transitivity (tval (fun x => x) (TN (v + z) o i h)); [destruct (v + z)%Z; reflexivity|]. cbn [tval]. rewrite plus_IZR, RtoC_plus. ring.
    - cbn [ins]. rewrite (tval_insp (ins z m) (RtoC (IZR z) * meval m) IH). cbn [meval fold_right]. fold (meval m). ring.
  Qed.
  Lemma tval_insall : forall p t, tval (fun x => x) (insall p t) = tval (fun x => x) t + peval p.
  Proof.
    induction p as [|u p IH]; intros t.
    - destruct t; cbn [insall]; cbn [peval fold_right]; ring.
    - rewrite peval_cons. transitivity (tval (fun x => x) (insall p (ins (fst u) (snd u) t))); [destruct t; reflexivity|].
      rewrite IH, tval_ins. ring.
  Qed.
  Lemma tnil_ok : forall t acc, tnil t = true -> tval acc t = RtoC 0.
  Proof.
    induction t as [|v o IHo i IHi h IHh]; intros acc H; [reflexivity|]. cbn [tnil] in H.
    destruct (Z.eqb v 0) eqn:E; [|discriminate H]. destruct (tnil o); [|discriminate H]. destruct (tnil i); [|discriminate H].
    apply Z.eqb_eq in E. subst v. cbn [tval]. rewrite (IHo _ eq_refl), (IHi _ eq_refl), (IHh _ H). ring.
  Qed.
  Lemma same_eq p q : same p q = true -> peval p = peval q.
  Proof.
    intros H. apply (tnil_ok _ (fun x => x)) in H. rewrite !tval_insall, peval_neg in H. cbn [tval] in H.
    transitivity (peval p + (RtoC 0 + peval q + - peval p)); [rewrite H|]; ring.
  Qed.
End Eval.

(** ** Common factors *)
Fixpoint mremove (x : positive) (m : mono) : option mono :=
  match m with
  | [] => None
  | y :: m' => if Pos.eqb x y then Some m' else match mremove x m' with Some l => Some (y :: l) | None => None end
  end.
Fixpoint premove (x : positive) (p : poly) : option poly :=
  match p with
  | [] => Some []
  | t :: p' =>
      match mremove x (snd t), premove x p' with Some m, Some l => Some ((fst t, m) :: l) | _, _ => None end
  end.
Fixpoint strip (k : nat) (x : positive) (p : poly) : option poly :=
  match k with O => Some p | S k => match premove x p with Some p' => strip k x p' | None => None end end.
Lemma mremove_ok rho x : forall m m', mremove x m = Some m' -> meval rho m = rho x * meval rho m'.
Proof.
  induction m as [|y m IH]; cbn [mremove]; intros m' H; [discriminate H|].
  destruct (Pos.eqb x y) eqn:E; [apply Pos.eqb_eq in E; injection H as <-; subst; reflexivity|].
  destruct (mremove x m) as [l|]; [|discriminate H]. injection H as <-.
  cbn [meval fold_right]. fold (meval rho m) (meval rho l). rewrite (IH l eq_refl). ring.
Qed.
Lemma premove_ok rho x : forall p p', premove x p = Some p' -> peval rho p = rho x * peval rho p'.
Proof.
  induction p as [|[a m] p IH]; cbn [premove fst snd]; intros p' H; [injection H as <-; cbn; ring|].
  destruct (mremove x m) as [m'|] eqn:E; [|discriminate H]. destruct (premove x p) as [l|]; [|discriminate H].
  injection H as <-. rewrite !peval_cons, (IH l eq_refl). cbn [fst snd]. rewrite (mremove_ok rho x m m' E). ring.
Qed.
Fixpoint Cpow (z : C) (k : nat) : C := match k with O => RtoC 1 | S k => z * Cpow z k end.
Lemma strip_ok rho x : forall k p p', strip k x p = Some p' -> peval rho p = Cpow (rho x) k * peval rho p'.
Proof.
  induction k as [|k IH]; cbn [strip Cpow]; intros p p' H; [injection H as <-; ring|].
  destruct (premove x p) as [l|] eqn:E; [|discriminate H]. rewrite (premove_ok rho x p l E), (IH l p' H). ring.
Qed.
