(** * Equality of symbolic numbers, decided *)
From Coq Require Import QArith.
From Verif Require Import Base Scalar Linear Particle Sproduct Propagator Process Lang Pure Sym SMRebuild.
Close Scope Q_scope.

Definition optz_eqb (a b : option Z) : bool :=
  match a, b with Some x, Some y => Z.eqb x y | None, None => true | _, _ => false end.
Definition side_eqb (a b : side) : bool :=
  match a, b with RAngle, RAngle | LAngle, LAngle | LSquare, LSquare | RSquare, RSquare => true | _, _ => false end.
Fixpoint zs_eqb (a b : list Z) : bool :=
  match a, b with [], [] => true | x :: a', y :: b' => Z.eqb x y && zs_eqb a' b' | _, _ => false end.
Fixpoint eqT (x y : sT) : bool :=
  match x, y with
  | TInt a, TInt b => Z.eqb a b
  | TofD a, TofD b => deqb a b
  | TOp a x y, TOp b x' y' => aop_eqb a b && eqT x x' && eqT y y'
  | TNeg x, TNeg y | TSqr x, TSqr y | TPw x, TPw y => eqT x y
  | TAt a, TAt b => atom_eqb a b
  | TRe x, TRe y | TAbs x, TAbs y => eqC x y
  | _, _ => false
  end
with eqC (x y : sC) : bool :=
  match x, y with
  | CMk a b, CMk a' b' => eqT a a' && eqT b b'
  | COp a x y, COp b x' y' => aop_eqb a b && eqC x x' && eqC y y'
  | CNeg x, CNeg y | CCj x, CCj y => eqC x y
  | CCT a x y, CCT b x' y' => aop_eqb a b && eqC x x' && eqT y y'
  | CTC a x y, CTC b x' y' => aop_eqb a b && eqT x x' && eqC y y'
  | CProd g sL dL ds sR dR, CProd g' sL' dL' ds' sR' dR' =>
      Bool.eqb g g' && optz_eqb sL sL' && eqd dL dL' && eqds ds ds' && optz_eqb sR sR' && eqd dR dR'
  | CSp d s p i, CSp d' s' p' i' => side_eqb d d' && optz_eqb s s' && eqd p p' && Bool.eqb i i'
  | CMt u p i j, CMt u' p' i' j' => Bool.eqb u u' && eqd p p' && Bool.eqb i i' && Bool.eqb j j'
  | CAt m zs, CAt m' zs' => Pos.eqb m m' && zs_eqb zs zs'
  | _, _ => false
  end
with eqd (x y : sdat) : bool :=
  match x, y with
  | SDat m a b c d, SDat m' a' b' c' d' => eqT m m' && eqT a a' && eqT b b' && eqT c c' && eqT d d'
  end
with eqds (x y : sdats) : bool :=
  match x, y with
  | SNil, SNil => true
  | SCons d ds, SCons d' ds' => eqd d d' && eqds ds ds'
  | _, _ => false
  end.

Lemma optz_eqb_eq a b : optz_eqb a b = true -> a = b.
Proof. destruct a, b; cbn; intros H; try discriminate H; beq; subst; reflexivity. Qed.
Lemma side_eqb_eq a b : side_eqb a b = true -> a = b.
Proof. destruct a, b; cbn; congruence. Qed.
Lemma zs_eqb_eq : forall a b, zs_eqb a b = true -> a = b.
Proof. induction a; destruct b; cbn; intros H; try discriminate H; beq; subst; f_equal; auto. Qed.

Scheme sT_mut := Induction for sT Sort Prop
  with sC_mut := Induction for sC Sort Prop
  with sdat_mut := Induction for sdat Sort Prop
  with sdats_mut := Induction for sdats Sort Prop.
Combined Scheme sym_mut from sT_mut, sC_mut, sdat_mut, sdats_mut.
Lemma sym_eqb_eq :
  (forall x y, eqT x y = true -> x = y) /\ (forall x y, eqC x y = true -> x = y) /\
  (forall x y, eqd x y = true -> x = y) /\ (forall x y, eqds x y = true -> x = y).
Proof.
  apply sym_mut; intros;
    match goal with H : _ ?x ?y = true |- ?x = ?y => destruct y; cbn in H; try discriminate H end;
    beq;
    repeat match goal with
    | H : Bool.eqb _ _ = true |- _ => apply Bool.eqb_prop in H
    | H : optz_eqb _ _ = true |- _ => apply optz_eqb_eq in H
    | H : side_eqb _ _ = true |- _ => apply side_eqb_eq in H
    | H : zs_eqb _ _ = true |- _ => apply zs_eqb_eq in H
    | H : deqb _ _ = true |- _ => apply deqb_eq in H
    | H : atom_eqb _ _ = true |- _ => apply atom_eqb_eq in H
    end; subst; f_equal; auto.
Qed.
Definition eqT_eq := proj1 sym_eqb_eq.
Definition eqC_eq := proj1 (proj2 sym_eqb_eq).
