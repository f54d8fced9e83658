(** * Symbolic numbers

    Used in proofs only: a [Num] whose numbers are terms over atoms, with the value of a
    term in any other [Num] given the values of the atoms.  Running the machine of Pure.v
    with it gives, by evaluation, statements about all arithmetics and all inputs. *)
From Coq Require Import QArith.
From Verif Require Import Base Scalar Linear Integers Particle Sproduct Propagator Process
  ParticleProofs Ready ParticleClaims SpecSproduct WorldProofs Lang LangFrame Pure PureProofs.
Close Scope Q_scope.
Open Scope st_scope.
Open Scope pres_scope.

Inductive tatom : Type :=
| AMem (x : id)                 (* an ldouble member *)
| APm (r : id) | APw (r : id)   (* mass and width of a propagator *)
| AMass (p : nat)               (* mass of a particle *)
| AMom (p mu : nat)             (* momentum of a particle *)
| APar (k : nat)                (* k-th parameter of a call *)
| AJunk (x : id).               (* what an uninitialised member holds *)

Inductive sD : Type := DLit (q : Q) | DOp (a : aop) (x y : sD) | DNeg (x : sD) | DSqr (x : sD).
Inductive sT : Type :=
| TInt (z : Z) | TofD (d : sD) | TOp (a : aop) (x y : sT) | TNeg (x : sT) | TSqr (x : sT) | TPw (x : sT)
| TAt (k : tatom) | TRe (x : sC) | TAbs (x : sC) | TDummy
with sC : Type :=
| CMk (x y : sT) | COp (a : aop) (x y : sC) | CNeg (x : sC) | CCj (x : sC)
| CCT (a : aop) (x : sC) (y : sT) | CTC (a : aop) (x : sT) (y : sC)
| CProd (angle : bool) (sL : option Z) (dL : sdat) (ds : sdats) (sR : option Z) (dR : sdat)
| CSp (d : side) (s : option Z) (dp : sdat) (snd_ : bool)
| CMt (upper : bool) (dp : sdat) (i j : bool)
| CAt (m : id) (zs : list Z)
| CDummy
with sdat : Type := SDat (m q0 q1 q2 q3 : sT)
with sdats : Type := SNil | SCons (d : sdat) (ds : sdats).

Definition snum : Num := mkNum sT sD sC false
  TInt TofD (TOp Add) (TOp Sub) (TOp Mul) (TOp Div) TNeg TSqr (fun _ => TDummy) (fun _ => TDummy) (fun _ => TDummy)
  (fun _ _ => TDummy) TPw (fun _ _ => false) (fun _ _ => false) (fun _ _ => false) (fun _ => false) (fun _ => false) TDummy
  DLit (DOp Add) (DOp Sub) (DOp Mul) (DOp Div) DNeg DSqr
  CMk TRe (fun _ => TDummy) (COp Add) (COp Sub) (COp Mul) (COp Div) CNeg CCj TAbs
  (CCT Add) (CCT Sub) (CCT Mul) (CCT Div) (CTC Add) (CTC Sub) (CTC Mul) (CTC Div) (fun _ _ => CDummy).

Section Den.
  Context {num : Num}.
  Variable rT : tatom -> T num.
  Variable rC : id -> list Z -> CX num.
  Notation pdata := (T num * mom num)%type.

  Definition okd {A} (d : A) (x : outcome A) : A := match x with Ok a => a | _ => d end.
  Fixpoint denD (x : sD) : D num :=
    match x with
    | DLit q => dQ q | DOp a x y => aopD a (denD x) (denD y) | DNeg x => dopp (denD x) | DSqr x => dsqrt (denD x)
    end.
  Fixpoint denT (x : sT) : T num :=
    match x with
    | TInt z => tZ z | TofD d => tD (denD d) | TOp a x y => aopT a (denT x) (denT y)
    | TNeg x => topp (denT x) | TSqr x => tsqrt (denT x) | TPw x => tpow2 (denT x)
    | TAt k => rT k | TRe x => cre (denC x) | TAbs x => cabs (denC x) | TDummy => tZ 0
    end
  with denC (x : sC) : CX num :=
    match x with
    | CMk x y => cmk (denT x) (denT y)
    | COp a x y => aopC a (denC x) (denC y)
    | CNeg x => copp (denC x) | CCj x => cconj (denC x)
    | CCT a x y => aopCT a (denC x) (denT y)
    | CTC a x y => aopTC a (denT x) (denC y)
    | CProd angle sL dL ds sR dR =>
        okd c0 (chain angle (sspin sL) (fresh (dend dL)) (map fresh (dends ds)) (sspin sR) (fresh (dend dR)))
    | CSp d s dp i => let v := okd (cvector_zero) (end_spinor d (sspin s) (fresh (dend dp))) in if i then cv1 v else cv0 v
    | CMt upper dp i j =>
        let M := okd cmatrix_zero (fst ((if upper then umat else lmat) (fresh (dend dp)))) in
        if i then if j then m11 M else m10 M else if j then m01 M else m00 M
    | CAt m zs => rC m zs
    | CDummy => c0
    end
  with dend (d : sdat) : pdata :=
    match d with SDat m q0 q1 q2 q3 => (denT m, V4 (denT q0) (denT q1) (denT q2) (denT q3)) end
  with dends (ds : sdats) : list pdata :=
    match ds with SNil => [] | SCons d ds => dend d :: dends ds end.

  Definition RTs (x : T num) (y : T snum) : Prop := x = denT y.
  Definition RDs (x : D num) (y : D snum) : Prop := x = denD y.
  Definition RCs (x : CX num) (y : CX snum) : Prop := x = denC y.
  Lemma sym_hom : hom RTs RDs RCs.
  Proof.
    constructor; unfold RTs, RDs, RCs; intros; subst; try reflexivity;
      match goal with a : aop |- _ => destruct a; reflexivity end.
  Qed.

  Definition sdat_of (d : T snum * mom snum) : sdat :=
    SDat (fst d) (v_0 (snd d)) (v_1 (snd d)) (v_2 (snd d)) (v_3 (snd d)).
  Fixpoint sdats_of (l : list (T snum * mom snum)) : sdats :=
    match l with [] => SNil | d :: l' => SCons (sdat_of d) (sdats_of l') end.
  Lemma dat_den d d' : Rdat RTs d d' -> dend (sdat_of d') = d.
  Proof.
    destruct d as [m [? ? ? ?]], d' as [m' [? ? ? ?]]. intros [E (E0 & E1 & E2 & E3)].
    unfold RTs in *; cbn in *. subst. reflexivity.
  Qed.
  Lemma dats_den ds ds' : Forall2 (Rdat RTs) ds ds' -> dends (sdats_of ds') = ds.
  Proof. induction 1; cbn; [reflexivity|]. f_equal; [apply dat_den; assumption|assumption]. Qed.
End Den.

Definition sym_spinor (d : side) (s : option Z) (dp : T snum * mom snum) : cvector snum :=
  Linear.CV (CSp d s (sdat_of dp) false : CX snum) (CSp d s (sdat_of dp) true : CX snum).
Definition sym_mat (upper : bool) (dp : T snum * mom snum) : cmatrix snum :=
  Linear.CM (CMt upper (sdat_of dp) false false : CX snum) (CMt upper (sdat_of dp) false true : CX snum)
     (CMt upper (sdat_of dp) true false : CX snum) (CMt upper (sdat_of dp) true true : CX snum).
Definition sym_oracle (zero : sT -> option bool) (accept : sT -> mom snum -> bool) (midctor : bool)
    (junk : id -> option sT) : oracle snum :=
  mkOracle (num:=snum) zero (fun angle sL dL ds sR dR => CProd angle sL (sdat_of dL) (sdats_of ds) sR (sdat_of dR))
    sym_spinor sym_mat accept midctor junk.

Lemma sym_ok {num : Num} (tot : bool) (rT : tatom -> T num) rC zero accept midctor junk :
  (forall y b, zero y = Some b -> teqb (denT rT rC y) (tZ 0) = b) ->
  (tot = true -> midctor = true -> strict num = false) ->
  (tot = true -> forall (m : T snum) (q : mom snum), accept m q = true ->
     let d := dend rT rC (sdat_of (m, q)) in
     fst (particle_new (fun _ => tZ 0) (snd d) (fst d)) = Ok tt /\
     isOk (fst (umat (fresh d))) = true /\ isOk (fst (lmat (fresh d))) = true) ->
  oracle_ok tot (RTs rT rC) (RCs rT rC) (sym_oracle zero accept midctor junk).
Proof.
  intros HZ HM HA. constructor; cbn [sym_oracle q_zero q_v q_spinor q_mat q_accept q_midctor].
  - intros x y b -> E. exact (HZ y b E).
  - intros angle sL dL dL' ds ds' sR dR dR' x HL HR HD E. 
    change (x = okd c0 (chain angle (sspin sL) (fresh (dend rT rC (sdat_of dL'))) (map fresh (dends rT rC (sdats_of ds')))
                          (sspin sR) (fresh (dend rT rC (sdat_of dR'))))).
    rewrite (dat_den _ _ _ _ HL), (dat_den _ _ _ _ HR), (dats_den _ _ _ _ HD), E. reflexivity.
  - intros d s dp dp' v HR E. split.
    + change (cv0 v = cv0 (okd cvector_zero (end_spinor d (sspin s) (fresh (dend rT rC (sdat_of dp')))))).
      rewrite (dat_den _ _ _ _ HR), E. reflexivity.
    + change (cv1 v = cv1 (okd cvector_zero (end_spinor d (sspin s) (fresh (dend rT rC (sdat_of dp')))))).
      rewrite (dat_den _ _ _ _ HR), E. reflexivity.
  - intros upper dp dp' M HR E. 
    assert (K : okd cmatrix_zero (fst ((if upper then umat else lmat) (fresh (dend rT rC (sdat_of dp'))))) = M)
      by (rewrite (dat_den _ _ _ _ HR), E; reflexivity).
    rewrite <- K. repeat split.
  - intros dp dp' Ht HR E. specialize (HA Ht _ _ E). cbn zeta in HA. destruct dp' as [m' q']. cbn [fst snd] in HA.
    rewrite (dat_den _ _ _ _ HR) in HA. exact HA.
  - exact HM.
Qed.
