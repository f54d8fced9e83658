(** * Equations between the masses a process object holds

    A process object holds the mass of a particle several times: in the particle, in its
    propagators, in a member.  Which of them agree in every object that can be reached. *)
From Coq Require Import QArith Lia.
From Verif Require Import Base Scalar Linear Integers Particle Sproduct Propagator Process
  ParticleProofs Ready ParticleClaims SpecSproduct WorldProofs Lang LangFrame Pure PureProofs ReadOnly Sym SymEq SMNames
  SMRun SMTwins SMMasses SMAll SMChecks PropsClasses.
Close Scope Q_scope.
Open Scope st_scope.

Inductive quant : Type := QLeg (p : nat) | QProp (r : id) | QMem (x : id) | QZero.
Definition held {num : Num} (o : obj num) (q : quant) : T num :=
  match q with
  | QLeg p => omass o p
  | QProp r => pr_m (o_R o r)
  | QMem x => cval (o_T o x)
  | QZero => tZ 0
  end.
Definition qterm (b : pobj snum) (q : quant) : option sT :=
  match q with
  | QLeg p => match nth_error (b_P b) p with Some (Some y, _) => Some y | _ => None end
  | QProp r => match b_R b r with Some pr => Some (pr_m pr) | None => None end
  | QMem x => b_T b x
  | QZero => Some (TInt 0)
  end.
Definition own (q : quant) (t : sT) : bool :=
  match q, t with
  | QLeg p, TAt (AMass p') => Nat.eqb p p'
  | QProp r, TAt (APm r') => Pos.eqb r r'
  | QMem x, TAt (AMem x') => Pos.eqb x x'
  | QZero, TInt 0 => true
  | _, _ => false
  end.
Definition kept (c : cls) (b : pobj snum) (q : quant) : bool :=
  match q with
  | QLeg p => (p <? 4)%nat
  | QProp r => negb (k_R (dyn_mask c) r)
  | QMem x => known (dyn_mask c) b x
  | QZero => true
  end.
Definition same_terms (b : pobj snum) (q q' : quant) : bool :=
  match qterm b q, qterm b q' with Some t, Some t' => eqT t t' | _, _ => false end.
Definition owns (b : pobj snum) (q q' : quant) : bool :=
  match qterm b q, qterm b q' with Some t, Some t' => own q t && own q' t' | _, _ => false end.
Definition agree (c : cls) (q q' : quant) : bool :=
  match shape c with
  | POk b =>
      kept c b q && kept c b q' && same_terms b q q' &&
      match find_meth c n_set_masses with
      | None => true
      | Some _ => match setm c b with POk b2 => same_terms b2 q q' || owns b2 q q' | _ => false end
      end
  | _ => false
  end.

Section Agree.
  Context {num : Num}.
  Lemma held_term strong Q rT rC (o : obj num) b q t : OR strong (RTs rT rC) (RCs rT rC) Q o b -> (match q with QLeg p => (p <? 4)%nat | _ => true end) = true ->
    qterm b q = Some t -> held o q = denT rT rC t.
  Proof.
    intros (D & HO) Hq. destruct q as [p|r|x|]; cbn [qterm held].
    - destruct (nth_error (b_P b) p) as [[[y|] k]|] eqn:E; try discriminate. intros [= <-].
      destruct (or_M _ _ _ _ _ _ _ HO p y k E) as (P & m & A1 & A2 & A3). apply Nat.ltb_lt in Hq.
      unfold omass. rewrite A1, A2. exact A3.
    - destruct (b_R b r) as [pr|] eqn:E; [|discriminate]. intros [= <-]. exact (proj1 (or_R _ _ _ _ _ _ _ HO r pr E)).
    - intros E. destruct (or_T _ _ _ _ _ _ _ HO x t E) as (v & V & W). rewrite V. exact W.
    - intros [= <-]. reflexivity.
  Qed.
  Lemma held_like c b (o o' : obj num) q : kept c b q = true -> shaped b o -> like (dyn_mask c) o o' -> held o' q = held o q.
  Proof.
    intros Hk HS HL. destruct q as [p|r|x|]; cbn [held kept] in *.
    - apply Nat.ltb_lt in Hk. unfold omass. destruct (sh_m _ _ HS p Hk) as (P & m & E1 & E2).
      destruct (proj2 (like_h _ _ _ HL) p P E1) as (P' & F1 & F2 & _). rewrite E1, F1, F2 by reflexivity. reflexivity.
    - apply negb_true_iff in Hk. rewrite (like_R _ _ _ HL r Hk). reflexivity.
    - apply andb_prop in Hk as [Hk _]. apply negb_true_iff in Hk. rewrite (like_T _ _ _ HL x Hk). reflexivity.
    - reflexivity.
  Qed.
  Lemma held_own (o o' : obj num) a q t rC : (match q with QLeg p => (p <? 4)%nat | _ => true end) = true -> own q t = true ->
    denT (at_masses o o' a) rC t = match q with QMem x => cval (o_T o x) | _ => held o' q end.
  Proof.
    intros Hp. destruct q as [p|r|x|]; cbn [own held].
    - destruct t as [| | | | | |[]| | |]; try discriminate. intros E. apply Nat.eqb_eq in E. subst p0. apply Nat.ltb_lt in Hp.
      cbn. rewrite Nat.min_l by lia. reflexivity.
    - destruct t as [| | | | | |[]| | |]; try discriminate. intros E. apply Pos.eqb_eq in E. subst r0. reflexivity.
    - destruct t as [| | | | | |[]| | |]; try discriminate. intros E. apply Pos.eqb_eq in E. subst x0. reflexivity.
    - destruct t as [[]| | | | | | | | |]; try discriminate. reflexivity.
  Qed.
  Theorem agree_ok (junk : id -> nat -> T num) c o q q' : In c sm_classes -> agree c q q' = true -> reached junk c o ->
    held o q = held o q'.
  Proof.
    intros Hc HA HR. unfold agree in HA. destruct (shape c) as [|e|b] eqn:EB; try discriminate HA.
    apply andb_prop in HA as [HA HM]. apply andb_prop in HA as [HA H0]. apply andb_prop in HA as [K K'].
    assert (L : (match q with QLeg p => (p <? 4)%nat | _ => true end) = true) by (destruct q; auto).
    assert (L' : (match q' with QLeg p => (p <? 4)%nat | _ => true end) = true) by (destruct q'; auto).
    destruct (shape_c c Hc) as (b0 & EB0 & HMs & _). rewrite EB in EB0. injection EB0 as <-.
    induction HR as [params o EC|o m args r o' HR IH Hm EC HS].
    - pose proof (construct_shape junk c params o b EC EB) as HO. unfold same_terms in H0.
      destruct (qterm b q) as [t|] eqn:E1; [|discriminate H0]. destruct (qterm b q') as [t'|] eqn:E2; [|discriminate H0].
      apply eqT_eq in H0. subst t'. rewrite (held_term _ _ _ _ _ _ _ _ HO L E1), (held_term _ _ _ _ _ _ _ _ HO L' E2). reflexivity.
    - pose proof (reached_twin junk c b o Hc EB HMs HR) as (S1 & _ & o0 & vT & vR & HAg). destruct (HAg []) as [A1 _].
      destruct (is_setter m) eqn:EM.
      + unfold is_setter in EM. rewrite Hm, orb_false_r in EM. specialize (HS EM). apply Pos.eqb_eq in EM. subst m.
        destruct r as [r|e|u]; try discriminate HS.
        destruct (find_meth c n_set_masses) as [f|] eqn:EF.
        2:{ exfalso. unfold callm in EC. change (run junk c 2 n_set_masses) with (fun args =>
            match find_meth c n_set_masses with Some f => invoke junk (run junk c 1) f args | None => slift (UB TypeMismatch) end) in EC.
          cbn beta in EC. rewrite EF in EC. discriminate EC. }
        destruct (setm_c c Hc b f EF EB) as (HSig & b2 & EB2 & _). rewrite EB2 in HM.
        destruct (set_masses_args junk c args o r o' HSig EC) as (a & ->).
        pose proof (after_setm c b junk o o a r o' b2 HSig EB2 S1
          (fun x Hx => ex_intro _ _ (ag_T _ _ _ _ _ _ A1 x (known_weaken c b x Hx))) (like_refl _ o) EC) as HO.
        unfold same_terms, owns in HM.
        destruct (qterm b2 q) as [t|] eqn:E1; [|discriminate HM]. destruct (qterm b2 q') as [t'|] eqn:E2; [|discriminate HM].
        rewrite (held_term _ _ _ _ _ _ _ _ HO L E1), (held_term _ _ _ _ _ _ _ _ HO L' E2).
        apply orb_prop in HM as [HM|HM]; [apply eqT_eq in HM; subst t'; reflexivity|].
        apply andb_prop in HM as [O1 O2]. rewrite (held_own o o a q t _ L O1), (held_own o o a q' t' _ L' O2).
        destruct q, q'; exact IH.
      + pose proof (method_quiet junk c (dyn_mask c) m args (dyn_ok c Hc m EM) o) as HL. rewrite EC in HL. cbn [snd] in HL.
        rewrite (held_like c b o o' q K S1 HL), (held_like c b o o' q' K' S1 HL). exact IH.
  Qed.
End Agree.
Lemma agree_kept c b q q' : shape c = POk b -> agree c q q' = true -> kept c b q = true /\ kept c b q' = true.
Proof.
  intros EB H. unfold agree in H. rewrite EB in H. apply andb_prop in H as [H _]. apply andb_prop in H as [H _].
  apply andb_prop in H as [H1 H2]. auto.
Qed.
Lemma agree_prop c b r q' : shape c = POk b -> agree c (QProp r) q' = true -> k_R (dyn_mask c) r = false.
Proof. intros EB H. destruct (agree_kept c b _ _ EB H) as (K & _). apply negb_true_iff in K. exact K. Qed.
