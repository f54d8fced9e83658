(** * Properties C17-C22: identities between spinor products, over the reals

    [chain angle sL PL ps sR PR] is what sproduct::v returns (C12) for the bracket
    <L|ps|R>, <L|ps|R], [L|ps|R] or [L|ps|R>; the particles are in use, with any
    history. *)
From Coq Require Import Reals Lra.
From Coquelicot Require Import Complex.
From Verif Require Import Base Scalar Linear Particle Sproduct ParticleProofs RealNum ParticleReal SpecSpinor SpinorReal
  Ready ParticleClaims SpecSproduct SpecChain ChainReal PropsParticle PropsSproduct.
Open Scope R_scope.

Lemma good_flip m s : good_end m s -> good_end m (flip s).
Proof. destruct s as [[j u]|]; auto. Qed.
Lemma F2_rev {A B} (R : A -> B -> Prop) l l' : Forall2 R l l' -> Forall2 R (rev l) (rev l').
Proof.
  induction 1 as [|x y l l' H _ IH]; [constructor|]. simpl.
  apply Forall2_app; [exact IH|]. constructor; [exact H|constructor].
Qed.

(** ** C17 *)
(** Summed over the spins of the massive ends, with the signs of lowered indices; u and v
    say at which height the spin index of i and j is summed. *)
Theorem C17_spin_sums :
  forall st eps mi qi Pi mj qj Pj (u v : bool),
    ready (num:=RN st eps) mi qi Pi -> ready (num:=RN st eps) mj qj Pj ->
    on_shell mi qi -> 0 <= v_0 qi -> on_shell mj qj -> 0 <= v_0 qj ->
    (forall a, sum_over (spin_args mi u) (fun s => sum_over (spin_args mj v) (fun t =>
       oscale (csign a s * csign a t)
         (omul (chain a s Pi [] t Pj) (chain (negb a) (flip t) Pj [] (flip s) Pi))))
     = Ok (RtoC (2 * minkdot qi qj))) /\
    (forall a, sum_over (spin_args mi u) (fun s => sum_over (spin_args mj v) (fun t =>
       omul (chain a s Pi [] t Pj) (oconj (chain a s Pi [] t Pj))))
     = Ok (RtoC (2 * minkdot qi qj))) /\
    (forall a, mi <> 0 -> mj <> 0 ->
     sum_over (spin_args mi u) (fun s => sum_over (spin_args mj v) (fun t =>
       omul (chain (negb a) s Pi [] t Pj) (oconj (chain a s Pi [] t Pj))))
     = Ok (RtoC (- 2 * Rabs mi * Rabs mj))).
Proof.
  intros st eps mi qi Pi mj qj Pj u v Ri Rj Hi Hi0 Hj Hj0.
  assert (E : forall a s t, good_end mi s -> good_end mj t ->
     chain a s Pi [] t Pj = Ok (rchain st eps a s qi [] t qj)).
  { intros a s t Gs Gt. exact (chain_eval st eps a s mi qi Pi [] [] t mj qj Pj Ri (Forall2_nil _) Rj Gs Gt). }
  assert (E' : forall a s t, good_end mi s -> good_end mj t ->
     chain a (flip t) Pj [] (flip s) Pi = Ok (rchain st eps a (flip t) qj [] (flip s) qi)).
  { intros a s t Gs Gt.
    exact (chain_eval st eps a (flip t) mj qj Pj [] [] (flip s) mi qi Pi Rj (Forall2_nil _) Ri (good_flip _ _ Gt) (good_flip _ _ Gs)). }
  replace (minkdot qi qj) with (minkdot qj qi) by (unfold minkdot; ring).
  split; [|split].
  - intros a. rewrite <- (pair_sum st eps a mi qi u mj qj v Hi Hi0 Hj Hj0).
    apply sum_args. intros s Gs. apply sum_args. intros t Gt. rewrite (E a s t Gs Gt), (E' (negb a) s t Gs Gt). reflexivity.
  - intros a. rewrite <- (square_sum st eps a mi qi u mj qj v Hi Hi0 Hj Hj0).
    apply sum_args. intros s Gs. apply sum_args. intros t Gt. rewrite (E a s t Gs Gt). reflexivity.
  - intros a Ni Nj. rewrite <- (mixed_sum st eps a mi qi u mj qj v Ni Nj Hi Hi0 Hj Hj0).
    apply sum_args. intros s Gs. apply sum_args. intros t Gt. rewrite !(E _ s t Gs Gt). reflexivity.
Qed.
Print Assumptions C17_spin_sums.
(** p_i = (13,3,4,0) massive, p_j = (1,0,0,1) massless: the sum is 26, nothing cancels *)
Example C17_example : on_shell 12 q13 /\ 0 <= v_0 q13 /\ on_shell 0 qz /\ 0 <= v_0 qz /\ 2 * minkdot q13 qz = 26.
Proof. repeat split; try apply q13_shell; try apply qz_shell; unfold minkdot; simpl; lra. Qed.

(** ** C18 *)
(** If one of the two chains can be evaluated, so can the other, and they differ by
    (-1)^(n+1). *)
Theorem C18_reversal :
  forall st eps (angle : bool) sL mL qL PL ps sR mR qR PR,
    ready (num:=RN st eps) mL qL PL -> ready (num:=RN st eps) mR qR PR ->
    (forall P, In P ps -> exists m q, ready (num:=RN st eps) m q P) ->
    forall x, chain angle sL PL ps sR PR = Ok x ->
    (* the bracket facing R opens the reversed chain *)
    chain (if Nat.even (length ps) then angle else negb angle) sR PR (rev ps) sL PL =
      Ok (if Nat.even (length ps) then Copp x else x).
Proof.
  intros st eps angle sL mL qL PL ps sR mR qR PR HL HR HM x HX.
  assert (K : exists qs, Forall2 (carries st eps) ps qs).
  { clear HX. induction ps as [|P ps IH]; [exists []; constructor|].
    destruct IH as (qs & IH); [intros Q HQ; apply HM; right; exact HQ|].
    destruct (HM P (or_introl eq_refl)) as (m & q & Hq). exists (q :: qs). constructor; [exists m; exact Hq|exact IH]. }
  destruct K as (qs & HF).
  destruct (chain_inv st eps angle sL mL qL PL ps qs sR mR qR PR x HL HF HR HX) as (GL & GR & ->).
  rewrite (chain_eval st eps _ sR mR qR PR (rev ps) (rev qs) sL mL qL PL HR (F2_rev _ _ _ HF) HL GR GL).
  rewrite (F2_length _ _ _ HF).
  replace (if Nat.even (length qs) then angle else negb angle) with (Bool.eqb angle (Nat.even (length qs)))
    by (destruct angle, (Nat.even (length qs)); reflexivity).
  rewrite rchain_reverse. reflexivity.
Qed.
Print Assumptions C18_reversal.

(** ** C19 *)
Theorem C19_schouten :
  forall st eps (a : bool) m1 q1 P1 s1 m2 q2 P2 s2 m3 q3 P3 s3 m4 q4 P4 s4,
    ready (num:=RN st eps) m1 q1 P1 -> ready (num:=RN st eps) m2 q2 P2 ->
    ready (num:=RN st eps) m3 q3 P3 -> ready (num:=RN st eps) m4 q4 P4 ->
    forall x12 x34 x13 x42 x14 x23,
    chain a s1 P1 [] s2 P2 = Ok x12 -> chain a s3 P3 [] s4 P4 = Ok x34 ->
    chain a s1 P1 [] s3 P3 = Ok x13 -> chain a s4 P4 [] s2 P2 = Ok x42 ->
    chain a s1 P1 [] s4 P4 = Ok x14 -> chain a s2 P2 [] s3 P3 = Ok x23 ->
    Cplus (Cplus (Cmult x12 x34) (Cmult x13 x42)) (Cmult x14 x23) = RtoC 0.
Proof.
  intros st eps a m1 q1 P1 s1 m2 q2 P2 s2 m3 q3 P3 s3 m4 q4 P4 s4 R1 R2 R3 R4 x12 x34 x13 x42 x14 x23 H12 H34 H13 H42 H14 H23.
  destruct (chain_inv st eps a s1 m1 q1 P1 [] [] s2 m2 q2 P2 x12 R1 (Forall2_nil _) R2 H12) as (_ & _ & ->).
  destruct (chain_inv st eps a s3 m3 q3 P3 [] [] s4 m4 q4 P4 x34 R3 (Forall2_nil _) R4 H34) as (_ & _ & ->).
  destruct (chain_inv st eps a s1 m1 q1 P1 [] [] s3 m3 q3 P3 x13 R1 (Forall2_nil _) R3 H13) as (_ & _ & ->).
  destruct (chain_inv st eps a s4 m4 q4 P4 [] [] s2 m2 q2 P2 x42 R4 (Forall2_nil _) R2 H42) as (_ & _ & ->).
  destruct (chain_inv st eps a s1 m1 q1 P1 [] [] s4 m4 q4 P4 x14 R1 (Forall2_nil _) R4 H14) as (_ & _ & ->).
  destruct (chain_inv st eps a s2 m2 q2 P2 [] [] s3 m3 q3 P3 x23 R2 (Forall2_nil _) R3 H23) as (_ & _ & ->).
  apply rchain_schouten.
Qed.
Print Assumptions C19_schouten.

(** ** C20 *)
(** The conjugated chain runs backwards with brackets exchanged and the spin indices
    moved; every end contributes the sign csign (SpecChain). *)
Theorem C20_conjugation :
  forall st eps (angle : bool) sL mL qL PL ps sR mR qR PR,
    ready (num:=RN st eps) mL qL PL -> ready (num:=RN st eps) mR qR PR ->
    (forall P, In P ps -> exists m q, ready (num:=RN st eps) m q P) ->
    forall x, chain angle sL PL ps sR PR = Ok x ->
    let angleR := if Nat.even (length ps) then angle else negb angle in (* the bracket of R *)
    oscale (csign angle sL * csign angleR sR)
      (chain (negb angleR) (flip sR) PR (rev ps) (flip sL) PL) = Ok (Cconj x).
Proof.
  intros st eps angle sL mL qL PL ps sR mR qR PR HL HR HM x HX angleR.
  assert (K : exists qs, Forall2 (carries st eps) ps qs).
  { clear HX angleR. induction ps as [|P ps IH]; [exists []; constructor|].
    destruct IH as (qs & IH); [intros Q HQ; apply HM; right; exact HQ|].
    destruct (HM P (or_introl eq_refl)) as (m & q & Hq). exists (q :: qs). constructor; [exists m; exact Hq|exact IH]. }
  destruct K as (qs & HF).
  destruct (chain_inv st eps angle sL mL qL PL ps qs sR mR qR PR x HL HF HR HX) as (GL & GR & ->).
  rewrite (chain_eval st eps _ (flip sR) mR qR PR (rev ps) (rev qs) (flip sL) mL qL PL HR (F2_rev _ _ _ HF) HL
             (good_flip _ _ GR) (good_flip _ _ GL)).
  rewrite (rchain_conj st eps angle mL sL qL qs mR sR qR GL GR).
  assert (angleR = Bool.eqb angle (Nat.even (length qs))) as ->.
  { unfold angleR. rewrite (F2_length _ _ _ HF). destruct angle, (Nat.even (length qs)); reflexivity. }
  reflexivity.
Qed.
Print Assumptions C20_conjugation.

(** ** C21 *)
(** <..|i^I> [i_I|..> summed over I inserts p_i between the momenta of the two chains;
    <..|i^I> <i_I|..> gives +-|m_i|.  s is the first chain's end for i, flip s the second's. *)
Theorem C21_completeness :
  forall st eps (angle : bool) sL mL qL PL ps m q P (u : bool) rs sR mR qR PR,
    ready (num:=RN st eps) mL qL PL -> ready (num:=RN st eps) mR qR PR -> ready (num:=RN st eps) m q P ->
    (forall Q, In Q ps \/ In Q rs -> exists m q, ready (num:=RN st eps) m q Q) ->
    good_end mL sL -> good_end mR sR ->
    on_shell m q -> 0 <= v_0 q ->
    let a := if Nat.even (length ps) then angle else negb angle in   (* the bracket |i> or |i] *)
    let sign := if Reqb m 0 then 1 else if Bool.eqb a u then 1 else -1 in
    sum_over (spin_args m u) (fun s =>
        omul (chain angle sL PL ps s P) (chain (negb a) (flip s) P rs sR PR)) =
      oscale sign (chain angle sL PL (ps ++ P :: rs) sR PR) /\
    (m <> 0 ->
     sum_over (spin_args m u) (fun s =>
        omul (chain angle sL PL ps s P) (chain a (flip s) P rs sR PR)) =
      oscale (sign * Rabs m) (chain angle sL PL (ps ++ rs) sR PR)).
Proof.
  intros st eps angle sL mL qL PL ps m q P u rs sR mR qR PR HL HR HP HM GL GR Hs H0 a sign.
  assert (K : forall l, (forall Q, In Q l -> exists m q, ready (num:=RN st eps) m q Q) ->
              exists qs, Forall2 (carries st eps) l qs).
  { induction l as [|Q l IH]; intros Hl; [exists []; constructor|].
    destruct IH as (qs & IH); [intros Q' HQ; apply Hl; right; exact HQ|].
    destruct (Hl Q (or_introl eq_refl)) as (m' & q' & Hq). exists (q' :: qs). constructor; [exists m'; exact Hq|exact IH]. }
  destruct (K ps) as (qs & F1); [auto|]. destruct (K rs) as (ks & F2); [auto|]. clear K.
  assert (Ea : a = Bool.eqb angle (Nat.even (length qs))).
  { unfold a. rewrite (F2_length _ _ _ F1). destruct angle, (Nat.even (length qs)); reflexivity. }
  assert (EL : forall s, good_end m s -> chain angle sL PL ps s P = Ok (rchain st eps angle sL qL qs s q)).
  { intros s Gs. exact (chain_eval st eps angle sL mL qL PL ps qs s m q P HL F1 HP GL Gs). }
  assert (ER : forall b s, good_end m s -> chain b (flip s) P rs sR PR = Ok (rchain st eps b (flip s) q ks sR qR)).
  { intros b s Gs. exact (chain_eval st eps b (flip s) m q P rs ks sR mR qR PR HP F2 HR (good_flip _ _ Gs) GR). }
  split.
  - rewrite (chain_eval st eps angle sL mL qL PL (ps ++ P :: rs) (qs ++ q :: ks) sR mR qR PR HL) by
      (first [assumption|apply Forall2_app; [exact F1|constructor; [exists m; exact HP|exact F2]]]).
    cbn [oscale obind].
    transitivity (Ok (rsum m u (fun s => Cmult (rchain st eps angle sL qL qs s q) (rchain st eps (negb a) (flip s) q ks sR qR)))).
    + apply sum_args. intros s Gs. rewrite (EL s Gs), (ER _ s Gs). reflexivity.
    + rewrite Ea, (insert_sum st eps angle sL qL qs m q u ks sR qR Hs H0). do 3 f_equal.
      unfold rsg, sign. rewrite <- Ea. reflexivity.
  - intros Nm.
    rewrite (chain_eval st eps angle sL mL qL PL (ps ++ rs) (qs ++ ks) sR mR qR PR HL) by
      (first [assumption|apply Forall2_app; assumption]).
    cbn [oscale obind].
    transitivity (Ok (rsum m u (fun s => Cmult (rchain st eps angle sL qL qs s q) (rchain st eps a (flip s) q ks sR qR)))).
    + apply sum_args. intros s Gs. rewrite (EL s Gs), (ER _ s Gs). reflexivity.
    + apply Reqb_false in Nm. unfold sign, rsum. rewrite Nm, Ea. f_equal.
      exact (insert_mass st eps angle sL qL qs m q u ks sR qR Hs H0).
Qed.
Print Assumptions C21_completeness.

(** ** C22 *)
Definition total (qs : list (vec4 R)) (f : vec4 R -> R) : R := fold_right (fun q acc => f q + acc) 0 qs.

(** ks: the particles whose momenta sum to zero; the chains differ in the particle in one slot only. *)
Theorem C22_momentum_conservation :
  forall st eps (angle : bool) sL mL qL PL ps rs sR mR qR PR (ks : list (particle (RN st eps))) (qks : list (vec4 R)),
    ready (num:=RN st eps) mL qL PL -> ready (num:=RN st eps) mR qR PR ->
    (forall Q, In Q ps \/ In Q rs -> exists m q, ready (num:=RN st eps) m q Q) ->
    Forall2 (fun K q => exists m, ready (num:=RN st eps) m q K) ks qks ->
    good_end mL sL -> good_end mR sR ->
    total qks v_0 = 0 -> total qks v_1 = 0 -> total qks v_2 = 0 -> total qks v_3 = 0 ->
    sum_over ks (fun K => chain angle sL PL (ps ++ K :: rs) sR PR) = Ok (RtoC 0).
Proof.
  intros st eps angle sL mL qL PL ps rs sR mR qR PR ks qks HL HR HM HK GL GR T0 T1 T2 T3.
  assert (K : forall l, (forall Q, In Q l -> exists m q, ready (num:=RN st eps) m q Q) ->
              exists qs, Forall2 (carries st eps) l qs).
  { induction l as [|Q l IH]; intros Hl; [exists []; constructor|].
    destruct IH as (qs & IH); [intros Q' HQ; apply Hl; right; exact HQ|].
    destruct (Hl Q (or_introl eq_refl)) as (m' & q' & Hq). exists (q' :: qs). constructor; [exists m'; exact Hq|exact IH]. }
  destruct (K ps) as (qs & F1); [auto|]. destruct (K rs) as (ns & F2); [auto|]. clear K.
  set (w := map (fun q => (1, q)) qks).
  assert (W : forall f, wsum w f = total qks f).
  { intros f. unfold w. clear - f. induction qks as [|q l IH]; simpl in *; [reflexivity|]. rewrite IH. ring. }
  assert (S : sum_over ks (fun K => chain angle sL PL (ps ++ K :: rs) sR PR)
            = Ok (cwsum w (fun q => rchain st eps angle sL qL (qs ++ q :: ns) sR qR))).
  { unfold w. clear w W T0 T1 T2 T3. induction HK as [|Q q ks qks HQ _ IH]; [reflexivity|].
    unfold sum_over in *. cbn [map osum]. rewrite IH.
    rewrite (chain_eval st eps angle sL mL qL PL (ps ++ Q :: rs) (qs ++ q :: ns) sR mR qR PR HL) by
      (first [assumption|apply Forall2_app; [exact F1|constructor; [exact HQ|exact F2]]]).
    cbn [obind map cwsum fold_right fst snd]. f_equal. rewrite Cmult_1_l. reflexivity. }
  rewrite S, rchain_conservation; try reflexivity; rewrite W; assumption.
Qed.
Print Assumptions C22_momentum_conservation.

(** Particles for C18-C22: 0 massive (12), 1 and 2 massless back to back, and chains
    between them evaluate. *)
Example C18_C22_example : forall st eps, 0 <= eps ->
  exists P0 P1 P2 P3 : particle (RN st eps),
    ready (num:=RN st eps) 12 q13 P0 /\ ready (num:=RN st eps) 0 qz P1 /\ ready (num:=RN st eps) 0 ql P2 /\
    good_end 12 (Some (1%Z, false)) /\ good_end 0 None /\
    (exists x, chain true (Some (1%Z, false)) P0 [P2; P0] None P1 = Ok x) /\
    (exists x, chain false None P1 [] None P2 = Ok x) /\
    (* momenta (1,0,0,1) + (1,0,0,-1) + (-2,0,0,0) = 0 *)
    ready (num:=RN st eps) 2 (V4 (-2) 0 0 0) P3 /\
    total [qz; ql; V4 (-2) 0 0 0] v_0 = 0 /\ total [qz; ql; V4 (-2) 0 0 0] v_3 = 0.
Proof.
  intros st eps He.
  destruct (new_on_shell st eps (fun _ => 0) 12 q13 He q13_shell) as (P0 & _ & R0).
  destruct (new_on_shell st eps (fun _ => 0) 0 qz He qz_shell) as (P1 & _ & R1).
  destruct (new_on_shell st eps (fun _ => 0) 0 ql He ql_shell) as (P2 & _ & R2).
  destruct (new_on_shell st eps (fun _ => 0) 2 (V4 (-2) 0 0 0) He) as (P3 & _ & R3).
  { unfold on_shell, minksq; simpl; lra. }
  exists P0, P1, P2, P3.
  assert (G1 : good_end 12 (Some (1%Z, false))) by (split; [lra|left; reflexivity]).
  assert (G0 : good_end 0 None) by reflexivity.
  repeat (split; [assumption|]). split; [|split; [|split; [assumption|split; unfold total; simpl; lra]]].
  - eexists. refine (chain_eval st eps true _ 12 q13 P0 [P2; P0] [ql; q13] _ 0 qz P1 R0 _ R1 G1 G0).
    repeat constructor; [exists 0|exists 12]; assumption.
  - eexists. exact (chain_eval st eps false _ 0 qz P1 [] [] _ 0 ql P2 R1 (Forall2_nil _) R2 G0 G0).
Qed.
