(** * Particles in use

    [ready m q P]: P is the state of a particle object of mass m whose last successful
    set_momentum was set_momentum(q), after which any accessors have been called (some
    of which may have thrown).  Nothing is assumed about the life of the object before. *)
From Coq Require Import Reals Lra.
From Coquelicot Require Import Complex.
From Verif Require Import Base Scalar Linear Particle ParticleProofs RealNum ParticleReal.

Section ReadyDef.
  Context {num : Num}.
  Definition ready (m : T num) (q : mom num) (P : particle num) : Prop :=
    exists P0 P1 h, mass P0 = Ok m /\ set_momentum q P0 = (Ok tt, P1) /\
      forallb is_accessor h = true /\ P = snd (prun h P1).

  Lemma ready_new g m q P : particle_new g q m = (Ok tt, P) -> ready m q P.
  Proof.
    intros H. exists (w_m (Val m) (particle_default g)), P, [].
    split; [reflexivity|]. split; [exact H|]. split; reflexivity.
  Qed.
  Lemma ready_set m q P P' : mass P = Ok m -> set_momentum q P = (Ok tt, P') -> ready m q P'.
  Proof. intros H1 H2. exists P, P', []. auto. Qed.

  Lemma prun_app (h1 h2 : list (pcall num)) : forall P,
    snd (prun (h1 ++ h2) P) = snd (prun h2 (snd (prun h1 P))).
  Proof.
    induction h1 as [|o h1 IH]; intros P; simpl; [reflexivity|].
    destruct (pstep o P) as [r P']. specialize (IH P').
    destruct (prun (h1 ++ h2) P') as [? ?], (prun h1 P') as [? ?]; simpl in *. exact IH.
  Qed.
  Lemma ready_step m q P o : ready m q P -> is_accessor o = true -> ready m q (snd (pstep o P)).
  Proof.
    intros (P0 & P1 & h & H1 & H2 & H3 & H4) Ho. exists P0, P1, (h ++ [o]).
    split; [exact H1|]. split; [exact H2|]. split.
    - rewrite forallb_app, H3. simpl. rewrite Ho. reflexivity.
    - rewrite prun_app, <- H4. simpl. destruct (pstep o P); reflexivity.
  Qed.

  Lemma ready_coh m q P : ready m q P -> coh P.
  Proof.
    intros (P0 & P1 & h & H1 & H2 & H3 & ->).
    destruct (set_momentum_ok_empty _ _ _ H2) as [E1 E2].
    apply (prun_transparent h P1 (empty_coh _ E1 E2) H3).
  Qed.
  (** All that matters is what set_momentum left. *)
  Lemma ready_transparent {A} (x : ST (particle num) A) m q P :
    transparent x -> ready m q P ->
    exists P0 P1, mass P0 = Ok m /\ set_momentum q P0 = (Ok tt, P1) /\ fst (x P) = fst (x P1).
  Proof.
    intros Hx HR. pose proof (ready_coh _ _ _ HR) as HC.
    destruct HR as (P0 & P1 & h & H1 & H2 & H3 & ->). exists P0, P1.
    split; [exact H1|]. split; [exact H2|].
    destruct (set_momentum_ok_empty _ _ _ H2) as [E1 E2].
    destruct (prun_transparent h P1 (empty_coh _ E1 E2) H3) as (_ & _ & U).
    destruct (Hx _ HC) as (K & _ & _). rewrite K, U.
    destruct (Hx P1 (empty_coh _ E1 E2)) as (K1 & _ & _). symmetry. exact K1.
  Qed.
End ReadyDef.

Open Scope R_scope.
Section ReadyReal.
  Variables (st : bool) (eps : R).
  Notation num := (RN st eps).
  Notation rmom := (vec4 R).
  Notation particle := (particle num).

  Lemma ready_described {A} (x : ST particle A) m (q : rmom) (P : particle) :
    transparent x -> ready (num:=num) m q P ->
    Rabs (minksq q - m * m) <= eps * 1000000000 /\
    exists P1, described m q P1 /\ fst (x P) = fst (x P1).
  Proof.
    intros Hx HR. destruct (ready_transparent x m q P Hx HR) as (P0 & P1 & H1 & H2 & H3).
    destruct (set_momentum_real st eps q m P0 H1) as [(_ & H)|(Hs & P' & H & HD)];
      rewrite H2 in H; simpl in H; try discriminate.
    injection H as <-. split; [exact Hs|]. exists P1; auto.
  Qed.
  Ltac rd_acc x HR :=
    match type of HR with ready _ _ ?P =>
      destruct (ready_described x _ _ P ltac:(auto using transparent_spinor0, transparent_spinor2) HR)
        as (_ & P1 & HD & ->) end.

  Lemma ready_umat m (q : rmom) (P : particle) : ready (num:=num) m q P ->
    fst (umat P) = Ok (cmatrix_of_mom (num:=num) q true).
  Proof.
    intros HR. destruct (ready_described umat _ _ _ (transparent_mat UpMat) HR) as (_ & P1 & HD & ->).
    exact (umat_real _ _ _ _ _ HD).
  Qed.
  Lemma ready_lmat m (q : rmom) (P : particle) : ready (num:=num) m q P ->
    fst (lmat P) = Ok (cmatrix_of_mom (num:=num) q false).
  Proof.
    intros HR. destruct (ready_described lmat _ _ _ (transparent_mat LoMat) HR) as (_ & P1 & HD & ->).
    exact (lmat_real _ _ _ _ _ HD).
  Qed.
  Lemma ready_spinor0 m (q : rmom) (P : particle) d : ready (num:=num) m q P ->
    fst (spinor0 d P) = if Reqb m 0 then Ok (rspinor st eps q (d, M0)) else Exn MassNonzero.
  Proof.
    intros HR. destruct (ready_described _ _ _ _ (transparent_spinor0 d) HR) as (_ & P1 & HD & ->).
    exact (spinor0_real _ _ _ _ _ _ HD).
  Qed.
  Lemma ready_spinor2 m (q : rmom) (P : particle) d j u : ready (num:=num) m q P ->
    fst (spinor2 d j u P) =
      if negb (j =? 1)%Z && negb (j =? -1)%Z then Exn BadSpin
      else if Reqb m 0 then Exn MassZero else Ok (rspinor st eps q (d, kind_of j u)).
  Proof.
    intros HR. destruct (ready_described _ _ _ _ (transparent_spinor2 d j u) HR) as (_ & P1 & HD & ->).
    exact (spinor2_real _ _ _ _ _ _ _ _ HD).
  Qed.
  Lemma ready_shell m (q : rmom) (P : particle) : ready (num:=num) m q P ->
    Rabs (minksq q - m * m) <= eps * 1000000000.
  Proof. intros HR. apply (ready_described _ _ _ _ (transparent_ret tt) HR). Qed.
  Lemma transparent_test_angles : transparent (num:=num) (sconst test_angles).
  Proof. apply transparent_const. reflexivity. Qed.
End ReadyReal.
