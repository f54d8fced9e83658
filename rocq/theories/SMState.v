(** * The state of a process object after set_momenta *)
From Coq Require Import QArith Lia.
From Verif Require Import Base Scalar Linear Integers Particle Sproduct Propagator Process
  ParticleProofs Ready ParticleClaims SpecSproduct WorldProofs Lang LangFrame Pure PureProofs ReadOnly Sym SMNames
  SMRun SMTwins SMMasses SMAll SMChecks.
Close Scope Q_scope.
Open Scope st_scope.

Section State.
  Context {num : Num}.
  Variable c : cls.
  Variable d : mask.
  Variable b : pobj snum.
  Variable ms : list id.
  Hypothesis HP : polar_total (num:=num).
  Hypothesis HT : takes_momenta c = true.
  Hypothesis HA : forallb (answers c d b ms) all_pats = true.

  (** set_momenta succeeds only if all four particles accept *)
  Lemma returned_accepted (junk : id -> nat -> T num) vT vR o o0 q : length q = 4%nat ->
    agrees d b vT vR (ext_of o0 q []) o -> isOk (fst (callm junk c n_set_momenta (map GMom q) o)) = true ->
    accepted (ext_of o0 q []).
  Proof.
    intros HL HAg HOk. destruct (accepted_or_rejects (ext_of o0 q [])) as [|(r & HR)]; [assumption|exfalso].
    assert (HQ : forall p, (p < 4)%nat -> nth_error q p = Some (x_q (ext_of o0 q []) p)).
    { intros p Hp. apply nth_error_nth'. lia. }
    rewrite (set_momenta_reject c d b HT junk vT vR _ o q r HL HQ HAg HR) in HOk. clear -HR HOk.
    unfold mom_params in HR. cbn [rejects] in HR.
    repeat match type of HR with match fst ?x with _ => _ end = _ => destruct (fst x) end;
      try discriminate HR; injection HR as <-; discriminate HOk.
  Qed.
  Lemma given_state (vC : id -> list Z -> CX num) (junk : id -> nat -> T num) vT vR o o0 q : length q = 4%nat -> shaped b o ->
    agrees d b vT vR (ext_of o0 q []) o -> isOk (fst (callm junk c n_set_momenta (map GMom q) o)) = true ->
    exists b1, after c d b (pat_of (ext_of o0 q [])) = POk (None, b1) /\
      OR true (RTs (rT1 vT vR (ext_of o0 q [])) vC) (RCs (rT1 vT vR (ext_of o0 q [])) vC) (Qj (pat_of (ext_of o0 q [])))
        (snd (callm junk c n_set_momenta (map GMom q) o)) b1.
  Proof.
    intros HL HSh HAg HOk. pose proof (returned_accepted junk vT vR o o0 q HL HAg HOk) as HAc.
    set (E := ext_of o0 q []) in *. destruct (after_pat c d b ms HA E) as (b1 & Eb & _). exists b1. split; [exact Eb|].
    pose proof (Qj_ok vT vR E vC (pat_of E) HP HAc (pat_of_ok o0 q)) as HQ.
    pose proof (before_OR d b vT vR E vC true (Qj (pat_of E)) o (fun _ => eq_refl) HSh HAg) as HO.
    assert (HArg : Forall2 (Rarg (RTs (rT1 vT vR E) vC)) (map GMom q) smoms).
    { apply smoms_args; [exact HL|]. intros p Hp. cbn [E ext_of x_q]. apply nth_error_nth'. lia. }
    pose proof (method_ref true _ _ _ (sym_hom (rT1 vT vR E) vC) (Qj (pat_of E)) HQ junk c n_set_momenta _ _ o (jobj d b) HArg HO) as K.
    fold (after c d b (pat_of E)) in K. rewrite Eb in K. unfold REF in K.
    destruct (callm junk c n_set_momenta (map GMom q) o) as [[r|e|u] o']; try discriminate K. apply K.
  Qed.
End State.
