(** * Two objects that hold the same

    Two objects of a process class with the same members, propagators and masses answer
    alike once they have been given the same momenta. *)
From Coq Require Import QArith Lia.
From Verif Require Import Base Scalar Linear Integers Particle Sproduct Propagator Process
  ParticleProofs Ready ParticleClaims SpecSproduct WorldProofs Lang LangFrame Pure PureProofs ReadOnly Sym SMNames SMRun.
Close Scope Q_scope.
Open Scope st_scope.

(** ** Checks, by evaluation *)
Definition bools : list bool := [true; false].
Definition all_pats : list (nat -> bool) :=
  flat_map (fun a => flat_map (fun b => flat_map (fun c => map (fun d => mkpat a b c d) bools) bools) bools) bools.
Lemma all_pats_in a b c d : In (mkpat a b c d) all_pats.
Proof. destruct a, b, c, d; cbn; tauto. Qed.

Definition after (c : cls) (d : mask) (b : pobj snum) (pat : nat -> bool) :=
  pmethod (Qj pat) c (pinner (Qj pat) c) n_set_momenta smoms (jobj d b).
Definition answer (c : cls) (pat : nat -> bool) (m : id) (b1 : pobj snum) :=
  pmethod (Qj pat) c (pinner (Qj pat) c) m [] b1.
Definition answers (c : cls) (d : mask) (b : pobj snum) (ms : list id) (pat : nat -> bool) : bool :=
  match after c d b pat with
  | POk (None, b1) => forallb (fun m => match answer c pat m b1 with PNone => false | _ => true end) ms
  | _ => false
  end.
Definition mom_sig (f : meth) : bool :=
  match m_params f with
  | [(a, PkMom); (b, PkMom); (c, PkMom); (d, PkMom)] =>
      Pos.eqb a n_mom1 && Pos.eqb b n_mom2 && Pos.eqb c n_mom3 && Pos.eqb d n_mom4
  | _ => false
  end.
Definition takes_momenta (c : cls) : bool :=
  match find_meth c n_set_momenta with
  | Some f => mom_sig f && starts (strip (m_body f)) mom_params
  | None => false
  end.
Definition sound (c : cls) (d : mask) (ms : list id) : bool :=
  takes_momenta c &&
  match shape c with POk b => has_masses b && forallb (answers c d b ms) all_pats | _ => false end.

Section Twins.
  Context {num : Num}.
  Variable c : cls.
  Variable d : mask.
  Variable b : pobj snum.
  Variable ms : list id.
  Hypothesis HP : polar_total (num:=num).
  Hypothesis HT : takes_momenta c = true.
  Hypothesis HA : forallb (answers c d b ms) all_pats = true.

  Definition twin (o1 o2 : obj num) : Prop :=
    shaped b o1 /\ shaped b o2 /\ exists o0 vT vR, forall q,
      agrees d b vT vR (ext_of o0 q []) o1 /\ agrees d b vT vR (ext_of o0 q []) o2.
  Lemma twin_like o1 o2 o1' o2' : (forall p, k_P d p = false) ->
    twin o1 o2 -> like d o1 o1' -> like d o2 o2' -> twin o1' o2'.
  Proof.
    intros HD (S1 & S2 & o0 & vT & vR & HAg) L1 L2. split; [exact (shaped_like d b o1 o1' S1 L1)|]. split; [exact (shaped_like d b o2 o2' S2 L2)|].
    exists o0, vT, vR. intros q. destruct (HAg q) as [A1 A2]. split; [exact (agrees_like d b vT vR _ o1 o1' HD A1 L1)|exact (agrees_like d b vT vR _ o2 o2' HD A2 L2)].
  Qed.
  Lemma twin_self o : shaped b o -> (forall x, known d b x = true -> exists v, o_T o x = Val v) -> twin o o.
  Proof.
    intros HS HK. split; [exact HS|]. split; [exact HS|]. exists o. eexists. eexists. intros q.
    split; apply agrees_self; assumption.
  Qed.

  Definition pat_of (E : ext (num:=num)) : nat -> bool :=
    mkpat (teqb (x_m E 0) (tZ 0)) (teqb (x_m E 1) (tZ 0)) (teqb (x_m E 2) (tZ 0)) (teqb (x_m E 3) (tZ 0)).
  Lemma pat_of_ok o q p : teqb (x_m (ext_of o q []) p) (tZ 0) = pat_of (ext_of o q []) p.
  Proof. destruct p as [|[|[|p]]]; try reflexivity. destruct p; reflexivity. Qed.

  Lemma set_momenta_reject (junk : id -> nat -> T num) vT vR E o q r : length q = 4%nat ->
    (forall p, (p < 4)%nat -> nth_error q p = Some (x_q E p)) -> agrees d b vT vR E o ->
    rejects E mom_params = Some r -> fst (callm junk c n_set_momenta (map GMom q) o) = r.
  Proof.
    intros HL HQ [_ _ AM] HR. unfold takes_momenta in HT.
    unfold callm. change (run junk c 2 n_set_momenta) with (fun args =>
      match find_meth c n_set_momenta with Some f => invoke junk (run junk c 1) f args | None => slift (UB TypeMismatch) end).
    cbn beta. destruct (find_meth c n_set_momenta) as [f|]; [|discriminate HT].
    apply andb_prop in HT as [HS HB]. unfold mom_sig in HS.
    destruct (m_params f) as [|[x1 []] [|[x2 []] [|[x3 []] [|[x4 []] [|]]]]] eqn:EP; try discriminate HS.
    repeat (apply andb_prop in HS as [HS ?]).
    repeat match goal with H : Pos.eqb _ _ = true |- _ => apply Pos.eqb_eq in H; subst end.
    destruct q as [|q0 [|q1 [|q2 [|q3 [|]]]]]; try discriminate HL.
    unfold invoke. rewrite EP. cbn [map bind_args bind_arg fst snd obind].
    match goal with |- context [exec _ _ _ (o, ?l)] => set (e := l) end.
    destruct (strip_exec junk (run junk c 1) (m_body f) o e) as (e' & EA & EX).
    rewrite EX.
    assert (K : fst (exec junk (run junk c 1) (strip (m_body f)) (o, e')) = r).
    { apply (rejected junk _ E mom_params); auto.
      - repeat constructor; cbn [fst]; apply AM; lia.
      - assert (K : forall p, (p < 4)%nat -> nth_error [q0; q1; q2; q3] p = Some (x_q E p)) by exact HQ.
        pose proof (K 0%nat ltac:(lia)) as K0. pose proof (K 1%nat ltac:(lia)) as K1.
        pose proof (K 2%nat ltac:(lia)) as K2. pose proof (K 3%nat ltac:(lia)) as K3.
        cbn in K0, K1, K2, K3. injection K0 as K0. injection K1 as K1. injection K2 as K2. injection K3 as K3.
        repeat constructor; unfold has_mom; cbn [fst snd]; rewrite EA; [rewrite <- K0|rewrite <- K1|rewrite <- K2|rewrite <- K3];
          reflexivity. }
    destruct (exec junk _ _ (o, e')) as [r' [o' l']]. exact K.
  Qed.

  Notation vC := (fun (_ : id) (_ : list Z) => c0 (num:=num)).
  Lemma ret_det rT (r1 r2 : option (ret num)) y :
    ret_rel (RTs rT vC) (RCs rT vC) r1 y -> ret_rel (RTs rT vC) (RCs rT vC) r2 y -> r1 = r2.
  Proof.
    destruct r1 as [[x|x]|], r2 as [[x'|x']|], y as [[y|y]|]; cbn; try contradiction; try reflexivity;
      unfold RTs, RCs; intros -> ->; reflexivity.
  Qed.
  Lemma reads_keep tot RT RC Q b1 (junk : id -> nat -> T num) rs : forall o, forallb (fun k => match k with OCall m _ => method_reads c m end) rs = true ->
    OR tot RT RC Q o b1 -> OR (n1:=num) (n2:=snum) tot RT RC Q (snd (orun junk c rs o)) b1.
  Proof.
    induction rs as [|[m args] rs IH]; intros o H HO; cbn [forallb orun ostep] in *; [exact HO|].
    apply andb_prop in H as [Hm Hr]. pose proof (method_keeps tot RT RC Q b1 junk c m args Hm o HO) as K.
    destruct (callm junk c m args o) as [r o']. cbn [snd] in K.
    specialize (IH o' Hr K). destruct (orun junk c rs o'). exact IH.
  Qed.

  Lemma after_pat E : exists b1, after c d b (pat_of E) = POk (None, b1) /\
    forall m, In m ms -> answer c (pat_of E) m b1 <> PNone.
  Proof.
    rewrite forallb_forall in HA. specialize (HA (pat_of E) (all_pats_in _ _ _ _)). unfold answers in HA.
    destruct (after c d b (pat_of E)) as [|e|[[r|] b1]]; try discriminate HA. exists b1. split; [reflexivity|].
    intros m Hm. rewrite forallb_forall in HA. specialize (HA m Hm). intros EN. rewrite EN in HA. discriminate HA.
  Qed.

  (** One object, accepted momenta: the answers in terms of what it holds. *)
  Lemma given_momenta (junk : id -> nat -> T num) vT vR o o0 q : length q = 4%nat -> shaped b o -> agrees d b vT vR (ext_of o0 q []) o ->
    accepted (ext_of o0 q []) ->
    exists b1, after c d b (pat_of (ext_of o0 q [])) = POk (None, b1) /\
    fst (callm junk c n_set_momenta (map GMom q) o) = Ok None /\
    forall rs, forallb (fun k => match k with OCall m _ => method_reads c m end) rs = true ->
      let rT := rT1 vT vR (ext_of o0 q []) in
      forall m, REF true (fun r _ p => ret_rel (RTs rT vC) (RCs rT vC) r (fst p))
        (callm junk c m [] (snd (orun junk c rs (snd (callm junk c n_set_momenta (map GMom q) o)))))
        (answer c (pat_of (ext_of o0 q [])) m b1).
  Proof.
    intros HL HSh HAg HAc. set (E := ext_of o0 q []) in *. destruct (after_pat E) as (b1 & Eb & _). exists b1. split; [exact Eb|].
    pose proof (Qj_ok vT vR E vC (pat_of E) HP HAc (pat_of_ok o0 q)) as HQ.
    pose proof (before_OR d b vT vR E vC true (Qj (pat_of E)) o (fun _ => eq_refl) HSh HAg) as HO.
    assert (HArg : Forall2 (Rarg (RTs (rT1 vT vR E) vC)) (map GMom q) smoms).
    { apply smoms_args; [exact HL|]. intros p Hp. cbn [E ext_of x_q]. apply nth_error_nth'. lia. }
    pose proof (method_ref true _ _ _ (sym_hom (rT1 vT vR E) vC) (Qj (pat_of E)) HQ junk c n_set_momenta _ _ o (jobj d b) HArg HO) as K.
    fold (after c d b (pat_of E)) in K. rewrite Eb in K.
    destruct (callm junk c n_set_momenta (map GMom q) o) as [r o'] eqn:EC.
    destruct r as [r|e|u]; try discriminate K. destruct K as [K1 K2]. cbn [fst snd] in K1, K2 |- *.
    split. { destruct r as [[]|]; [contradiction..|reflexivity]. }
    intros rs Hrs m. pose proof (reads_keep _ _ _ _ _ junk rs o' Hrs K2) as K3.
    pose proof (method_ref true _ _ _ (sym_hom (rT1 vT vR E) vC) (Qj (pat_of E)) HQ junk c m [] [] (snd (orun junk c rs o')) b1 (Forall2_nil _) K3) as K4.
    fold (answer c (pat_of E) m b1) in K4. cbn zeta.
    unfold REF in K4 |- *. destruct (answer c (pat_of E) m b1) as [|e|p]; auto.
    destruct (callm junk c m [] (snd (orun junk c rs o'))) as [[r'|e|u] o'']; tauto.
  Qed.

  Theorem twins (junk1 junk2 : id -> nat -> T num) o1 o2 q : twin o1 o2 -> length q = 4%nat ->
    fst (callm junk1 c n_set_momenta (map GMom q) o1) = fst (callm junk2 c n_set_momenta (map GMom q) o2) /\
    (isOk (fst (callm junk1 c n_set_momenta (map GMom q) o1)) = true ->
     forall rs1 rs2,
       forallb (fun k => match k with OCall m _ => method_reads c m end) rs1 = true ->
       forallb (fun k => match k with OCall m _ => method_reads c m end) rs2 = true ->
     forall m, In m ms ->
       fst (callm junk1 c m [] (snd (orun junk1 c rs1 (snd (callm junk1 c n_set_momenta (map GMom q) o1))))) =
       fst (callm junk2 c m [] (snd (orun junk2 c rs2 (snd (callm junk2 c n_set_momenta (map GMom q) o2)))))).
  Proof.
    intros (S1 & S2 & o0 & vT & vR & HAg) HL. destruct (HAg q) as (A1 & A2).
    set (E := ext_of o0 q []) in *.
    assert (HQ : forall p, (p < 4)%nat -> nth_error q p = Some (x_q E p)).
    { intros p Hp. apply nth_error_nth'. lia. }
    destruct (accepted_or_rejects E) as [HAc|(r & HR)].
    - destruct (given_momenta junk1 vT vR o1 o0 q HL S1 A1 HAc) as (b1 & Eb & F1 & G1).
      destruct (given_momenta junk2 vT vR o2 o0 q HL S2 A2 HAc) as (b2 & Eb' & F2 & G2).
      rewrite Eb in Eb'. injection Eb' as <-. split; [congruence|]. intros _ rs1 rs2 H1 H2 m Hm.
      destruct (after_pat E) as (b2 & Eb' & HN). fold E in Eb. rewrite Eb in Eb'. injection Eb' as <-.
      specialize (G1 rs1 H1 m). specialize (G2 rs2 H2 m). specialize (HN m Hm). cbn zeta in G1, G2. fold E in G1, G2.
      destruct (answer c (pat_of E) m b1) as [|e|[y b3]]; [congruence| |]; unfold REF in G1, G2.
      + destruct (fst (callm junk1 c m [] _)) as [?|e1|?]; [contradiction| |discriminate].
        destruct (fst (callm junk2 c m [] _)) as [?|e2|?]; [contradiction| |discriminate].
        destruct G1 as [->|]; [|discriminate]. destruct G2 as [->|]; [|discriminate]. reflexivity.
      + destruct (callm junk1 c m [] _) as [[r1|?|?] o1']; try discriminate G1.
        destruct (callm junk2 c m [] _) as [[r2|?|?] o2']; try discriminate G2.
        cbn [fst]. f_equal. exact (ret_det _ _ _ _ G1 G2).
    - rewrite (set_momenta_reject junk1 vT vR E o1 q r HL HQ A1 HR), (set_momenta_reject junk2 vT vR E o2 q r HL HQ A2 HR).
      split; [reflexivity|]. intros HOk. exfalso. clear -HR HOk.
      unfold mom_params in HR. cbn [rejects] in HR.
      repeat match type of HR with match fst ?x with _ => _ end = _ => destruct (fst x) end;
        try discriminate HR; injection HR as <-; discriminate HOk.
  Qed.
End Twins.
