(** * amp2 as an expression in the amplitudes

    Definitions and lemmas behind C46 and C48: what amp2 returns, as a term (Sym.v) in the
    values of the methods it calls, and that term as a linear combination of their squares
    and interferences. *)
From Coq Require Import Reals QArith Qreals String Ascii Lra Lia.
From Coquelicot Require Import Complex.
From Verif Require Import Base Scalar RealNum Linear Integers Particle Sproduct Propagator Process
  ParticleProofs Ready ParticleClaims SpecSproduct WorldProofs Lang LangFrame Pure PureProofs ReadOnly Sym SMNames
  SMRun SMTwins SMMasses SMAll SMChecks SMState PropsClasses.
Close Scope Q_scope.
Close Scope R_scope.
Open Scope st_scope.
Open Scope nat_scope.

(** ** The machine of Pure.v with the inner calls left as atoms *)
Definition acall (c : cls) (pat : nat -> bool) (b1 : pobj snum) : pobj snum -> id -> list Z -> pres (CX snum) :=
  fun _ m zs => match pinner (Qj pat) c b1 m zs with POk _ => POk (CAt m zs : CX snum) | PExn e => PExn e | PNone => PNone end.
Definition summed (c : cls) (pat : nat -> bool) (m : id) (b1 : pobj snum) : pres (option (ret snum) * pobj snum) :=
  match find_meth c m with
  | Some f => pinvoke (Qj pat) (acall c pat b1) true f [] b1
  | None => PNone
  end.

(** The value of a method with int arguments that returns a cdouble. *)
Definition amp_of {num : Num} (junk : id -> nat -> T num) (c : cls) (o : obj num) (m : id) (zs : list Z) : CX num :=
  match fst (callm junk c m (map GI zs) o) with Ok (Some (RtC x)) => x | _ => c0 end.

Section Summed.
  Context {num : Num}.
  Variable junk : id -> nat -> T num.
  Variable c : cls.
  Variable pat : nat -> bool.
  Variable b1 : pobj snum.
  Variable o2 : obj num.
  Variable rT : tatom -> T num.
  Notation rC := (amp_of junk c o2).
  Hypothesis HQ : oracle_ok true (RTs rT rC) (RCs rT rC) (Qj pat).
  Hypothesis HO : OR true (RTs rT rC) (RCs rT rC) (Qj pat) o2 b1.

  Lemma amp_value m zs y : pinner (Qj pat) c b1 m zs = POk y ->
    fst (callm junk c m (map GI zs) o2) = Ok (Some (RtC (rC m zs))) /\ rC m zs = denC rT rC y.
  Proof.
    intros E. pose proof (inner_ref true _ _ _ (sym_hom rT rC) (Qj pat) HQ junk c (run junk c 1) o2 b1 m zs HO) as K.
    rewrite E in K. unfold amp_of at 1 2, callm. change (run junk c 2 m) with (fun args =>
      match find_meth c m with Some f => invoke junk (run junk c 1) f args | None => slift (UB TypeMismatch) end).
    cbn beta. unfold REF in K. destruct (find_meth c m) as [f|]; cbn [slift] in *; [|discriminate K].
    destruct (invoke junk (run junk c 1) f (map GI zs) o2) as [[r|e|u] o']; try discriminate K.
    destruct K as ((x & -> & Hx) & _). cbn [fst]. split; [reflexivity|exact Hx].
  Qed.
  Lemma summed_ref m : REF true (fun r _ p => ret_rel (RTs rT rC) (RCs rT rC) r (fst p)) (callm junk c m [] o2) (summed c pat m b1).
  Proof.
    unfold summed, callm. change (run junk c 2 m) with (fun args =>
      match find_meth c m with Some f => invoke junk (run junk c 1) f args | None => slift (UB TypeMismatch) end).
    cbn beta. destruct (find_meth c m) as [f|] eqn:EF; [|exact I].
    assert (HC : forall o b m zs, b1 = b -> OR true (RTs rT rC) (RCs rT rC) (Qj pat) o b ->
      REF true (fun r o' y => (exists x, r = Some (RtC x) /\ RCs rT rC x y) /\ OR true (RTs rT rC) (RCs rT rC) (Qj pat) o' b)
        (run junk c 1 m (map GI zs) o) (acall c pat b1 b m zs)).
    { intros o b m' zs <- HO1. unfold acall.
      pose proof (inner_ref true _ _ _ (sym_hom rT rC) (Qj pat) HQ junk c (run junk c 0) o b1 m' zs HO1) as K.
      change (run junk c 1 m' (map GI zs)) with
        (match find_meth c m' with Some f => invoke junk (run junk c 0) f (map GI zs) | None => slift (UB TypeMismatch) end).
      destruct (pinner (Qj pat) c b1 m' zs) as [|e|y] eqn:EP; [exact I|exact K|].
      unfold REF in K |- *. destruct (find_meth c m'); cbn [slift] in *; [|exact K].
      destruct (invoke junk (run junk c 0) m0 (map GI zs) o) as [[r|e|u] o']; try exact K.
      destruct K as ((x & -> & Hx) & K2). split; [|exact K2]. exists x. split; [reflexivity|].
      unfold RCs in *. cbn [denC]. rewrite Hx. symmetry. exact (proj2 (amp_value m' zs y EP)). }
    pose proof (invoke_ref true _ _ _ (sym_hom rT rC) (Qj pat) HQ junk (run junk c 1) (acall c pat b1) (eq b1) HC true
                  (fun E => match diff_true_false E with end) f [] [] o2 b1 (Forall2_nil _) HO eq_refl) as K.
    unfold REF in K |- *. destruct (pinvoke (Qj pat) (acall c pat b1) true f [] b1) as [|e|p]; auto.
    destruct (invoke junk (run junk c 1) f [] o2) as [[r|e|u] o']; tauto.
  Qed.
End Summed.

(** ** The state reached *)
Lemma reached_state {num : Num} (junk : id -> nat -> T num) c o q rs : In c sm_classes -> polar_total (num:=num) ->
  reached junk c o -> length q = 4 -> isOk (fst (callm junk c n_set_momenta (map GMom q) o)) = true ->
  forallb reading rs = true ->
  exists b pat b1 rT, shape c = POk b /\ In pat all_pats /\ after c (dyn_mask c) b pat = POk (None, b1) /\
    (forall p mu, (p < 4) -> rT (AMom p mu) = comp (nth p q (V4 (tZ 0) (tZ 0) (tZ 0) (tZ 0))) mu) /\
    (forall p, (p < 4) -> exists P, nth_error (o_heap o) p = Some P /\ pa_m P = Val (rT (AMass p))) /\
    (forall r, k_R (dyn_mask c) r = false -> rT (APm r) = pr_m (o_R o r) /\ rT (APw r) = pr_w (o_R o r)) /\
    (forall x, known (dyn_mask c) b x = true -> o_T o x = Val (rT (AMem x))) /\
    forall vC, oracle_ok true (RTs rT vC) (RCs rT vC) (Qj pat) /\
      OR true (RTs rT vC) (RCs rT vC) (Qj pat) (snd (orun junk c rs (snd (callm junk c n_set_momenta (map GMom q) o)))) b1.
Proof.
  intros Hc HP HR HL HOk Hrs. destruct (shape_c c Hc) as (b & EB & HM & HA).
  destruct (reached_twin junk c b o Hc EB HM HR) as (HS & _ & o0 & vT & vR & HAg).
  destruct (HAg q) as (A & _).
  pose proof (returned_accepted c (dyn_mask c) b (takes_c c Hc) junk vT vR o o0 q HL A HOk) as HAc.
  destruct (given_state c (dyn_mask c) b (argless_list c) HP (takes_c c Hc) HA (fun _ _ => c0) junk vT vR o o0 q HL HS A HOk) as (b1 & Eb & _).
  exists b, (pat_of (ext_of o0 q [])), b1, (rT1 vT vR (ext_of o0 q [])).
  split; [exact EB|]. split; [apply all_pats_in|]. split; [exact Eb|]. split; [reflexivity|]. split.
  { intros p Hp. exact (ag_m _ _ _ _ _ _ A p Hp). }
  split; [intros r Hr; rewrite (ag_R _ _ _ _ _ _ A r Hr); split; reflexivity|].
  split; [intros x Hx; exact (ag_T _ _ _ _ _ _ A x Hx)|].
  intros vC. split; [exact (Qj_ok vT vR _ vC _ HP HAc (pat_of_ok o0 q))|].
  apply reads_keep; [apply reading_reads; assumption|].
  destruct (given_state c (dyn_mask c) b (argless_list c) HP (takes_c c Hc) HA vC junk vT vR o o0 q HL HS A HOk) as (b2 & Eb2 & K).
  rewrite Eb in Eb2. injection Eb2 as <-. exact K.
Qed.

(** ** Linear combinations of squares and interferences *)
Inductive key : Type :=
| KAbs (m : id) (zs : list Z)                       (* |m(zs)|^2 *)
| KRe (m : id) (zs : list Z) (m' : id) (zs' : list Z).  (* Re (m(zs) conj m'(zs')) *)
Fixpoint lin (t : sT) : option (list (sT * key)) :=
  match t with
  | TInt Z0 => Some []
  | TOp Add x y => match lin x, lin y with Some a, Some b => Some (a ++ b) | _, _ => None end
  | TOp Mul x y =>
      match lin x with
      | Some a => Some (map (fun k => (TOp Mul (fst k) y, snd k)) a)
      | None => match lin y with Some a => Some (map (fun k => (TOp Mul x (fst k), snd k)) a) | None => None end
      end
  | TOp Div x y => match lin x with Some a => Some (map (fun k => (TOp Div (fst k) y, snd k)) a) | None => None end
  | TPw (TAbs (CAt m zs)) => Some [(TInt 1, KAbs m zs)]
  | TRe (COp Mul (CAt m zs) (CCj (CAt m' zs'))) => Some [(TInt 1, KRe m zs m' zs')]
  | _ => None
  end.
(** rational constants *)
Definition qop (a : aop) (p q : Q) : option Q :=
  match a with
  | Add => Some (p + q)%Q | Sub => Some (p - q)%Q | Mul => Some (p * q)%Q
  | Div => if Qeq_bool q 0 then None else Some (p / q)%Q
  end.
Fixpoint qD (d : sD) : option Q :=
  match d with
  | DLit q => Some q
  | DOp a x y => match qD x, qD y with Some p, Some q => qop a p q | _, _ => None end
  | DNeg x => match qD x with Some p => Some (- p)%Q | None => None end
  | DSqr _ => None
  end.
Fixpoint qT (t : sT) : option Q :=
  match t with
  | TInt z => Some (inject_Z z)
  | TofD d => qD d
  | TOp a x y => match qT x, qT y with Some p, Some q => qop a p q | _, _ => None end
  | TNeg x => match qT x with Some p => Some (- p)%Q | None => None end
  | _ => None
  end.
Fixpoint consts (l : list (sT * key)) : option (list (Q * key)) :=
  match l with
  | [] => Some []
  | (t, k) :: l' => match qT t, consts l' with Some q, Some r => Some ((q, k) :: r) | _, _ => None end
  end.

Open Scope R_scope.
Fixpoint Rsum {A} (f : A -> R) (l : list A) : R := match l with [] => 0 | x :: l' => f x + Rsum f l' end.
Lemma Rsum_app {A} (f : A -> R) l l' : Rsum f (l ++ l') = Rsum f l + Rsum f l'.
Proof. induction l; cbn; [ring|rewrite IHl; ring]. Qed.
Lemma Rsum_map {A B} (f : B -> R) (g : A -> B) l : Rsum f (map g l) = Rsum (fun x => f (g x)) l.
Proof. induction l; cbn; [reflexivity|rewrite IHl; reflexivity]. Qed.
Lemma Rsum_flat {A B} (f : B -> R) (g : A -> list B) l : Rsum f (flat_map g l) = Rsum (fun x => Rsum f (g x)) l.
Proof. induction l; cbn; [reflexivity|rewrite Rsum_app, IHl; reflexivity]. Qed.
Lemma Rsum_ext {A} (f g : A -> R) l : (forall x, In x l -> f x = g x) -> Rsum f l = Rsum g l.
Proof.
  induction l as [|a l IH]; cbn [Rsum]; intros H; [reflexivity|].
  rewrite (H a (or_introl eq_refl)), IH; [reflexivity|]. intros x Hx. apply H. right. exact Hx.
Qed.
Lemma Rsum_mult {A} (f : A -> R) k l : Rsum (fun x => k * f x) l = k * Rsum f l.
Proof. induction l; cbn; [ring|rewrite IHl; ring]. Qed.
Lemma Rsum_plus {A} (f g : A -> R) l : Rsum (fun x => f x + g x) l = Rsum f l + Rsum g l.
Proof. induction l; cbn; [ring|rewrite IHl; ring]. Qed.
Lemma Rsum_zero {A} (l : list A) : Rsum (fun _ => 0) l = 0.
Proof. induction l; cbn; [reflexivity|rewrite IHl; ring]. Qed.
Lemma Rsum_nonneg {A} (f : A -> R) l : (forall x, In x l -> 0 <= f x) -> 0 <= Rsum f l.
Proof.
  induction l as [|a l IH]; cbn [Rsum]; intros H; [lra|].
  pose proof (H a (or_introl eq_refl)). assert (0 <= Rsum f l) by (apply IH; intros x Hx; apply H; right; exact Hx). lra.
Qed.

Ltac inR := match goal with |- @eq _ ?a ?b => change (@eq R a b) end.
Section Real.
  Variables (st : bool) (eps : R).
  Variable rT : tatom -> T (RN st eps).
  Variable rC : id -> list Z -> CX (RN st eps).
  Definition keyval (k : key) : R :=
    match k with
    | KAbs m zs => Cmod (rC m zs) ^ 2
    | KRe m zs m' zs' => Re (rC m zs * Cconj (rC m' zs'))%C
    end.
  Notation dT := (denT (num:=RN st eps) rT rC).
  Lemma lin_ok t : forall l, lin t = Some l -> dT t = Rsum (fun k => dT (fst k) * keyval (snd k)) l.
  Proof.
    induction t as [z|d|a x IHx y IHy|x IHx|x IHx|x IHx|k|x|x|]; intros l; cbn [lin]; try discriminate.
    - destruct z; try discriminate. intros [= <-]. reflexivity.
    - destruct a; try discriminate.
      + destruct (lin x) as [a|]; [|discriminate]. destruct (lin y) as [b|]; [|discriminate]. intros [= <-].
        rewrite Rsum_app, <- (IHx a eq_refl), <- (IHy b eq_refl). reflexivity.
      + destruct (lin x) as [a|].
        * intros [= <-]. rewrite Rsum_map. cbn [fst snd]. change (dT (TOp Mul x y)) with (dT x * dT y).
          rewrite (IHx a eq_refl), Rmult_comm, <- Rsum_mult. apply Rsum_ext. intros k _.
          change (dT (TOp Mul (fst k) y)) with (dT (fst k) * dT y). ring.
        * destruct (lin y) as [b|]; [|discriminate]. intros [= <-]. rewrite Rsum_map. cbn [fst snd].
          change (dT (TOp Mul x y)) with (dT x * dT y).
          rewrite (IHy b eq_refl), <- Rsum_mult. apply Rsum_ext. intros k _.
          change (dT (TOp Mul x (fst k))) with (dT x * dT (fst k)). ring.
      + destruct (lin x) as [a|]; [|discriminate]. intros [= <-]. rewrite Rsum_map. cbn [fst snd].
        change (dT (TOp Div x y)) with (dT x / dT y).
        unfold Rdiv. rewrite (IHx a eq_refl), Rmult_comm, <- Rsum_mult. apply Rsum_ext. intros k _.
        change (dT (TOp Div (fst k) y)) with (dT (fst k) / dT y). unfold Rdiv. ring.
    - destruct x; try discriminate. destruct x; try discriminate. intros [= <-].
      cbn [Rsum fst snd keyval]. change (dT (TPw (TAbs (CAt m zs)))) with (Cmod (rC m zs) * Cmod (rC m zs)).
      change (dT (TInt 1)) with 1. inR. ring.
    - destruct x; try discriminate. destruct a; try discriminate. destruct x1; try discriminate.
      destruct x2; try discriminate. destruct x2; try discriminate. intros [= <-].
      cbn [Rsum fst snd keyval]. change (dT (TInt 1)) with 1.
      change (dT (TRe (COp Mul (CAt m zs) (CCj (CAt m0 zs0))))) with (Re (rC m zs * Cconj (rC m0 zs0))%C). inR. ring.
  Qed.
  Lemma qop_ok a p q r : qop a p q = Some r -> Q2R r = aopT (num:=RN st eps) a (Q2R p) (Q2R q).
  Proof.
    destruct a; cbn [qop].
    - intros [= <-]. apply Q2R_plus.
    - intros [= <-]. apply Q2R_minus.
    - intros [= <-]. apply Q2R_mult.
    - destruct (Qeq_bool q 0) eqn:E; [discriminate|]. intros [= <-]. apply Q2R_div. apply Qeq_bool_neq, E.
  Qed.
  Lemma qD_ok d : forall q, qD d = Some q -> denD (num:=RN st eps) d = Q2R q.
  Proof.
    induction d as [p|a x IHx y IHy|x IHx|x IHx]; intros q; cbn [qD]; try discriminate.
    - intros [= <-]. reflexivity.
    - destruct (qD x) as [p1|]; [|discriminate]. destruct (qD y) as [p2|]; [|discriminate]. intros E.
      rewrite (qop_ok _ _ _ _ E). cbn [denD]. rewrite (IHx _ eq_refl), (IHy _ eq_refl). destruct a; reflexivity.
    - destruct (qD x) as [p1|]; [|discriminate]. intros [= <-]. cbn [denD]. rewrite (IHx _ eq_refl), Q2R_opp. reflexivity.
  Qed.
  Lemma qT_ok t : forall q, qT t = Some q -> dT t = Q2R q.
  Proof.
    induction t as [z|d|a x IHx y IHy|x IHx|x IHx|x IHx|k|x|x|]; intros q; cbn [qT]; try discriminate.
    - intros [= <-]. change (IZR z = Q2R (inject_Z z)). unfold Q2R. cbn [Qnum Qden inject_Z]. inR. field.
    - intros E. exact (qD_ok d q E).
    - destruct (qT x) as [p1|]; [|discriminate]. destruct (qT y) as [p2|]; [|discriminate]. intros E.
      rewrite (qop_ok _ _ _ _ E). cbn [denT]. rewrite (IHx _ eq_refl), (IHy _ eq_refl). reflexivity.
    - destruct (qT x) as [p1|]; [|discriminate]. intros [= <-]. cbn [denT]. rewrite (IHx _ eq_refl), Q2R_opp. reflexivity.
  Qed.
  Lemma consts_ok l : forall r, consts l = Some r ->
    Rsum (fun k => dT (fst k) * keyval (snd k)) l = Rsum (fun k => Q2R (fst k) * keyval (snd k)) r.
  Proof.
    induction l as [|[t k] l IH]; cbn [consts]; intros r.
    - intros [= <-]. reflexivity.
    - destruct (qT t) as [q|] eqn:E; [|discriminate]. destruct (consts l) as [r'|]; [|discriminate]. intros [= <-].
      cbn [Rsum fst snd]. rewrite (qT_ok t q E), (IH r' eq_refl). reflexivity.
  Qed.

  (** *** The same combination in another order *)
  Variable same : key -> key -> bool.
  Hypothesis same_ok : forall k k', same k k' = true -> keyval k = keyval k'.
  Fixpoint take (q : Q) (k : key) (l : list (Q * key)) : option (list (Q * key)) :=
    match l with
    | [] => None
    | (q', k') :: l' =>
        if (if Qeq_bool q q' then same k k' else false) then Some l'
        else match take q k l' with Some r => Some ((q', k') :: r) | None => None end
    end.
  Fixpoint rearranged (l l' : list (Q * key)) : bool :=
    match l with
    | [] => match l' with [] => true | _ => false end
    | (q, k) :: r => match take q k l' with Some r' => rearranged r r' | None => false end
    end.
  Notation val := (Rsum (fun k : Q * key => Q2R (fst k) * keyval (snd k))).
  Lemma take_ok q k : forall l r, take q k l = Some r -> val l = Q2R q * keyval k + val r.
  Proof.
    induction l as [|[q' k'] l IH]; cbn [take]; intros r; [discriminate|].
    destruct (Qeq_bool q q') eqn:EQ.
    - destruct (same k k') eqn:ES.
      + intros [= <-]. cbn [Rsum fst snd]. rewrite (same_ok _ _ ES), (Qeq_eqR _ _ (Qeq_bool_eq _ _ EQ)). reflexivity.
      + destruct (take q k l) as [r'|]; [|discriminate]. intros [= <-]. cbn [Rsum fst snd]. rewrite (IH r' eq_refl). ring.
    - destruct (take q k l) as [r'|]; [|discriminate]. intros [= <-]. cbn [Rsum fst snd]. rewrite (IH r' eq_refl). ring.
  Qed.
  Lemma rearranged_ok : forall l l', rearranged l l' = true -> val l = val l'.
  Proof.
    induction l as [|[q k] l IH]; cbn [rearranged]; intros l' H; [destruct l'; [reflexivity|discriminate H]|].
    destruct (take q k l') as [r|] eqn:E; [|discriminate H]. rewrite (take_ok _ _ _ _ E). cbn [Rsum fst snd].
    rewrite (IH r H). reflexivity.
  Qed.
End Real.
