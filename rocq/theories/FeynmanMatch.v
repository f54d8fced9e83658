(** * Four fermions: amplitudes from tables

    The amplitude of the Feynman rules and the amplitude of a class are sums over the keys of
    their tables; where the tables agree the amplitudes differ by a sign at most. *)
From Coq Require Import Reals QArith Qreals String Ascii Lra Lia.
From Coquelicot Require Import Complex.
From Verif Require Import Base Scalar RealNum Linear Integers Particle Sproduct Propagator Process
  ParticleProofs SpecSpinor ParticleReal SpinorReal Ready ParticleClaims SpecSproduct SpecChain ChainReal Lorentz
  WorldProofs Lang LangFrame Pure PureProofs ReadOnly Sym SymEq SMNames SMRun SMTwins SMMasses SMAll SMChecks
  SMAmp2 SpinColour Poly Covariant CovReal PropsWidth Feynman FeynmanAlg FeynmanSum FeynmanLegs FeynmanFlat FeynmanTable.
Close Scope Q_scope.
Close Scope R_scope.
Open Scope nat_scope.

(** ** Sums over keys *)
Section Keys.
  Variable f : key -> C.
  Definition ksum (l : list (key * R)) : C := Csum (fun x => Cmult (RtoC (snd x)) (f (fst x))) l.
  Lemma dedup_in k l : In k l -> In k (dedup l).
  Proof.
    induction l as [|x l IH]; cbn [dedup]; intros H; [contradiction|]. cbv zeta. destruct H as [->|H].
    - destruct (existsb (key_eqb k) (dedup l)) eqn:E; [|left; reflexivity]. apply existsb_exists in E as (y & Hy & E). apply key_eqb_eq in E. subst y. exact Hy.
    - destruct (existsb (key_eqb x) (dedup l)); [|right]; exact (IH H).
  Qed.
  Lemma dedup_nodup l : NoDup (dedup l).
  Proof.
    induction l as [|x l IH]; cbn [dedup]; [constructor|]. cbv zeta. destruct (existsb (key_eqb x) (dedup l)) eqn:E; [exact IH|]. constructor; [|exact IH].
    intros H. assert (K : existsb (key_eqb x) (dedup l) = true) by (apply existsb_exists; exists x; split; [exact H|apply key_eqb_refl]). congruence.
  Qed.
  Lemma Csum_at (ks : list key) k x : NoDup ks -> In k ks ->
    Csum (fun k' => if key_eqb k k' then Cmult x (f k') else RtoC 0) ks = Cmult x (f k).
  Proof.
    induction ks as [|y ks IH]; intros HN HI; [contradiction|]. cbn [Csum]. inversion HN as [|? ? H1 H2]; subst.
    destruct (key_eqb k y) eqn:E.
    - apply key_eqb_eq in E. subst y. rewrite (Csum_ext _ (fun _ => Cmult (RtoC 0) (RtoC 0))).
      + rewrite Csum_scal. ring.
      + intros k' Hk'. destruct (key_eqb k k') eqn:E; [apply key_eqb_eq in E; subst; contradiction|ring].
    - destruct HI as [->|HI]; [rewrite key_eqb_refl in E; discriminate|]. rewrite (IH H2 HI). ring.
  Qed.
  Lemma ksum_coef ks : NoDup ks -> forall l, (forall x, In x l -> In (fst x) ks) -> ksum l = Csum (fun k => Cmult (RtoC (coef l k)) (f k)) ks.
  Proof.
    intros HN. induction l as [|[k x] l IH]; intros H; unfold ksum in *; cbn [Csum coef fst snd].
    - rewrite Csum_scal. ring.
    - rewrite IH by (intros y Hy; apply H; right; exact Hy). rewrite <- (Csum_at ks k (RtoC x) HN (H (k, x) (or_introl eq_refl))), <- Csum_plus.
      apply Csum_ext. intros k' _. destruct (key_eqb k k'); rewrite ?RtoC_plus; ring.
  Qed.
  Lemma each_in {A} (P : A -> Prop) l : each P l -> forall x, In x l -> P x.
  Proof. induction l as [|y l IH]; cbn [each]; intros H x Hx; [contradiction|]. destruct H as [H1 H2], Hx as [<-|Hx]; auto. Qed.
  Lemma ksum_agree l l' s : each (fun k => coef l k = (s * coef l' k)%R) (dedup (map fst l ++ map fst l')) -> ksum l = Cmult (RtoC s) (ksum l').
  Proof.
    intros H. set (ks := dedup (map fst l ++ map fst l')) in *.
    rewrite (ksum_coef ks (dedup_nodup _) l), (ksum_coef ks (dedup_nodup _) l').
    - rewrite <- Csum_scal. apply Csum_ext. intros k Hk. rewrite (each_in _ _ H k Hk), RtoC_mult. ring.
    - intros x Hx. apply dedup_in, in_or_app. right. apply in_map. exact Hx.
    - intros x Hx. apply dedup_in, in_or_app. left. apply in_map. exact Hx.
  Qed.
End Keys.

Section Value.
  Variable col : list nat.
  Variable D : boson -> nat -> C.
  Variable E : nat -> ends2.
  Hypothesis HD : forall k, D Bg k = D BA k.
  Definition kval (x : key) : C := let '(t, b, k, m) := x in Cmult (Cmult (tensor_at t col) (pval E m)) (Cinv (D b k)).
  Lemma nleaf_val f : lval E f = Cmult (RtoC (if fst (nleaf f) then -1 else 1)) (lval E (snd (nleaf f))).
  Proof.
    unfold nleaf. destruct (f_L f <? f_R f); cbn [fst snd]; [ring|]. destruct f as [a l r]. unfold lval. cbn [f_angle f_L f_R].
    destruct a; unfold angle2, square2; (replace (RtoC (-1)) with (Copp (RtoC 1)) by (unfold RtoC, Copp; cbn; f_equal; ring); ring).
  Qed.
  Lemma npair_val m : pval E m = Cmult (RtoC (if fst (npair m) then -1 else 1)) (pval E (snd (npair m))).
  Proof.
    unfold npair, pval. rewrite (nleaf_val (fst m)), (nleaf_val (snd m)). destruct (nleaf (fst m)) as [s f], (nleaf (snd m)) as [s' g]. cbn [fst snd].
    assert (M : RtoC (-1) = Copp (RtoC 1)) by (unfold RtoC, Copp; cbn; f_equal; ring).
    destruct (f_L f <? f_L g), s, s'; cbn [xorb fst snd]; rewrite ?M; ring.
  Qed.
  Lemma mkkey_val t b k m x :
    Cmult (RtoC (snd (mkkey t b k m x))) (kval (fst (mkkey t b k m x))) = Cmult (RtoC x) (Cmult (Cmult (tensor_at t col) (pval E m)) (Cinv (D b k))).
  Proof.
    unfold mkkey. rewrite (npair_val m). destruct (npair m) as [s n]. cbn [fst snd kval].
    assert (K : D (bos_key b) k = D b k) by (destruct b; try reflexivity; symmetry; apply HD). rewrite K.
    assert (M : RtoC (-1) = Copp (RtoC 1)) by (unfold RtoC, Copp; cbn; f_equal; ring).
    destruct s; cbn [signed]; rewrite ?M, ?RtoC_opp; ring.
  Qed.
  (** the table of the code *)
  Lemma code_keys_val mirror e v rows :
    ksum kval (code_keys mirror e v rows) =
    Csum (fun w => Cmult (RtoC (tden v (w_c w))) (Cmult (Cmult (tensor_at (w_t w) col) (pval E (if mirror then swap2 (w_p w) else w_p w))) (Cinv (D (boson_of e (w_r w)) (w_ch w))))) rows.
  Proof. unfold ksum, code_keys. rewrite Csum_map. apply Csum_ext. intros w _. apply mkkey_val. Qed.
  (** the table of the Feynman rules *)
  Variables (P : standard_model) (p : process) (bs : list boson).
  Variable q : nat -> nat -> R.
  Hypothesis HP : process_ok bs p = true.
  Hypothesis HC : forall mu, (ingoing q 0 mu + ingoing q 1 mu + ingoing q 2 mu + ingoing q 3 mu = 0)%R.
  Hypothesis HE : forall k, k < 4 -> dirac2 (leg_mass2 P p k) (q k) (E k).
  Hypothesis Hprop : forall d, In d (diagrams bs p) -> propagator_den P (d_boson d) (transfer q (d_r d) (d_c d)) = D (d_boson d) (chan (d_r d) (d_c d)).
  Lemma spec_keys_val w : (forall k, k < 4 -> w k = canon p E k) ->
    feynman_amplitude P p q bs w col = ksum kval (spec_keys P p bs).
  Proof.
    intros Hw. unfold feynman_amplitude, ksum, spec_keys. rewrite Csum_flat_map. apply Csum_ext. intros d Hd.
    rewrite Csum_map, diagram_numerator, (Hprop d Hd).
    destruct (diag_ok p bs HP d Hd) as [HW _].
    rewrite (numerator_terms P p q E HC d w HW (fun k Hk => Hw k (diag_ends p bs HP d k Hd Hk)) (fun k Hk => HE k (diag_ends p bs HP d k Hd Hk))).
    rewrite (Csum_ext (fun x => Cmult (RtoC (snd _)) _)
      (fun x => Cmult (Cmult (Cmult (tensor_at (d_colour p d) col) (RtoC (d_sign d))) (Cinv (D (d_boson d) (chan (d_r d) (d_c d))))) (Cmult (RtoC (fst x)) (pval E (snd x))))).
    2: { intros x _. rewrite mkkey_val, RtoC_mult. ring. }
    rewrite Csum_scal. unfold tsum, Cdiv. ring.
  Qed.
End Value.

(** ** Channels *)
Lemma chan_square (q : nat -> nat -> R) r c : r < 4 -> c < 4 -> r <> c ->
  (forall mu, (ingoing q 0 mu + ingoing q 1 mu + ingoing q 2 mu + ingoing q 3 mu = 0)%R) ->
  square4 (transfer q r c) = square4 (match chan r c with 0 => transfer q 0 1 | 1 => transfer q 0 2 | _ => transfer q 0 3 end).
Proof.
  intros Hr Hc HN HC. pose proof (HC 0) as C0. pose proof (HC 1) as C1. pose proof (HC 2) as C2. pose proof (HC 3) as C3. clear HC.
  destruct r as [|[|[|[|r]]]]; [..|lia]; destruct c as [|[|[|[|c]]]]; try lia; cbn [chan]; try reflexivity; unfold square4, transfer;
  try (f_equal; ring); 
  (assert (K : forall a b x y : R, (a + b + x + y = 0 -> (x + y) * (x + y) = (a + b) * (a + b))%R) by (intros a b x y K; replace (x + y)%R with (- (a + b))%R by lra; ring));
  assert (K2 : forall a b x y : R, (a + x + b + y = 0 -> (x + y) * (x + y) = (a + b) * (a + b))%R) by (intros a b x y K2; replace (x + y)%R with (- (a + b))%R by lra; ring);
  assert (K3 : forall a b x y : R, (a + x + y + b = 0 -> (x + y) * (x + y) = (a + b) * (a + b))%R) by (intros a b x y K3; replace (x + y)%R with (- (a + b))%R by lra; ring);
  rewrite ?(Rplus_comm (ingoing q 3 _) (ingoing q 2 _)), ?(Rplus_comm (ingoing q 3 _) (ingoing q 1 _)), ?(Rplus_comm (ingoing q 2 _) (ingoing q 1 _));
  first [rewrite (K _ _ _ _ C0), (K _ _ _ _ C1), (K _ _ _ _ C2), (K _ _ _ _ C3); reflexivity
        |rewrite (K2 _ _ _ _ C0), (K2 _ _ _ _ C1), (K2 _ _ _ _ C2), (K2 _ _ _ _ C3); reflexivity
        |rewrite (K3 _ _ _ _ C0), (K3 _ _ _ _ C1), (K3 _ _ _ _ C2), (K3 _ _ _ _ C3); reflexivity].
Qed.
Definition den_at (P : standard_model) (q : nat -> nat -> R) (b : boson) (k : nat) : C :=
  propagator_den P b (match k with 0 => transfer q 0 1 | 1 => transfer q 0 2 | _ => transfer q 0 3 end).
Lemma once_distinct d : once d (d_r d) = true -> d_r d <> d_c d.
Proof.
  unfold once, ends. cbn [filter]. rewrite Nat.eqb_refl. intros H E. rewrite <- E, Nat.eqb_refl in H. cbn [length] in H.
  destruct (Nat.eqb (d_r d) (d_r' d)), (Nat.eqb (d_r d) (d_c' d)); discriminate H.
Qed.
Lemma den_chan P p bs (q : nat -> nat -> R) d : process_ok bs p = true ->
  (forall mu, (ingoing q 0 mu + ingoing q 1 mu + ingoing q 2 mu + ingoing q 3 mu = 0)%R) -> In d (diagrams bs p) ->
  propagator_den P (d_boson d) (transfer q (d_r d) (d_c d)) = den_at P q (d_boson d) (chan (d_r d) (d_c d)).
Proof.
  intros HP HC Hd. unfold den_at, propagator_den.
  assert (Hr : d_r d < 4) by (apply (diag_ends p bs HP d _ Hd); left; reflexivity).
  assert (Hc : d_c d < 4) by (apply (diag_ends p bs HP d _ Hd); right; left; reflexivity).
  rewrite (chan_square q (d_r d) (d_c d) Hr Hc (once_distinct d (diag_once p bs HP d _ Hd Hr)) HC).
  destruct (chan (d_r d) (d_c d)) as [|[|k]]; reflexivity.
Qed.

(** ** Reflections *)
Definition reflected (q : nat -> R) (mu : nat) : R := match mu with 0 => q 0 | _ => (- q mu)%R end.
Definition mirror2 (e : ends2) : ends2 := E2 (s1 e) (Copp (s0 e)) (Copp (a1 e)) (a0 e).
Lemma mirror_pval (E : nat -> ends2) m : pval (fun k => mirror2 (E k)) (swap2 m) = pval E m.
Proof.
  destruct m as [[a l r] [a' l' r']]. unfold pval, swap2, swap1, lval. cbn [fst snd f_angle f_L f_R].
  destruct a, a'; cbn [negb]; unfold angle2, square2, mirror2; cbn [a0 a1 s0 s1]; ring.
Qed.
Definition parity2 (i j : bool) : C := if Bool.eqb i j then RtoC 1 else Copp (RtoC 1).
Lemma mirror_P2 q i j : P2 (reflected q) i j = Cmult (parity2 i j) (P2 q (negb j) (negb i)).
Proof. destruct i, j; unfold parity2, P2, reflected, Cmult, Copp, RtoC; cbn [negb Bool.eqb fst snd]; f_equal; ring. Qed.
Lemma mirror_outer q es : outer2 q es -> outer2 (reflected q) (map mirror2 es).
Proof.
  intros H i j. rewrite !Csum_map, !mirror_P2. destruct (H (negb i) (negb j)) as [H1 H2]. rewrite <- H1, <- H2, <- !Csum_scal.
  assert (K : parity2 i j = parity2 j i) by (destruct i, j; reflexivity). split; apply Csum_ext; intros e _; rewrite <- ?K;
  destruct i, j; unfold parity2; cbn [ac sc negb Bool.eqb mirror2 a0 a1 s0 s1]; rewrite ?conj_opp; ring.
Qed.
Lemma conj_Csum {A} (f : A -> C) l : Cconj (Csum f l) = Csum (fun x => Cconj (f x)) l.
Proof. induction l as [|x l IH]; cbn [Csum]; [apply conj_R|]. rewrite conj_plus, IH. reflexivity. Qed.
Lemma mirror_cross m es : cross2 m es -> cross2 m (map mirror2 es).
Proof.
  intros H i j. rewrite Csum_map.
  transitivity (Cmult (Copp (parity2 i j)) (Cconj (Csum (fun e => Cmult (ac (negb j) e) (Cconj (sc (negb i) e))) es))).
  - rewrite conj_Csum, <- Csum_scal. apply Csum_ext. intros e _.
    destruct i, j; unfold parity2; cbn [ac sc negb Bool.eqb mirror2 a0 a1 s0 s1]; rewrite ?conj_mult, ?conj_opp, ?conj_conj; ring.
  - rewrite (H (negb j) (negb i)). destruct i, j; unfold parity2; cbn [negb Bool.eqb]; rewrite ?conj_opp, ?conj_R; ring.
Qed.
Lemma mirror_dirac m q e : dirac2 m q e -> dirac2 m (reflected q) (mirror2 e).
Proof.
  unfold dirac2. cbv zeta. intros (H1 & H2 & H3 & H4). cbn [reflected mirror2 a0 a1 s0 s1].
  assert (K1 : (- q 1%nat, - - q 2%nat)%R = Copp (q 1%nat, - q 2%nat)%R) by (unfold Copp; cbn; f_equal; ring).
  assert (K2 : (- q 1%nat, - q 2%nat)%R = Copp (q 1%nat, q 2%nat)) by (unfold Copp; cbn; f_equal; ring).
  rewrite K1, K2. replace (q 0%nat + - q 3%nat)%R with (q 0%nat - q 3%nat)%R by ring. replace (q 0%nat - - q 3%nat)%R with (q 0%nat + q 3%nat)%R by ring.
  replace (Cmult (RtoC m) (Copp (s0 e))) with (Copp (Cmult (RtoC m) (s0 e))) by ring.
  replace (Cmult (RtoC m) (Copp (a1 e))) with (Copp (Cmult (RtoC m) (a1 e))) by ring.
  replace (Cmult (RtoC m) (a0 e)) with (Copp (Copp (Cmult (RtoC m) (a0 e)))) by ring.
  rewrite <- H1, <- H2, <- H3, <- H4. repeat split; ring.
Qed.

(** ** The amplitude of a class *)
Section Code.
  Variables (st : bool) (eps : R).
  Notation num := (RN st eps).
  Variable c : cls.
  Variables b b1 : pobj snum.
  Hypothesis EB : shape c = POk b.
  Hypothesis EA : after c (dyn_mask c) b (thepat c) = POk (None, b1).
  Variable rT : tatom -> R.
  Variable rC : id -> list Z -> C.
  Variable q : nat -> vec4 R.
  Hypothesis HM : forall p mu, (p < 4)%nat -> rT (AMom p mu) = comp (num:=num) (q p) mu.
  Hypothesis HP : forall p, (p < 4)%nat -> thepat c p = Reqb (rT (AMass p)) 0.
  Hypothesis HA : forall p, (p < 4)%nat -> fst (particle_new (num:=num) (fun _ => 0%R) (q p) (rT (AMass p))) = Ok tt.
  Variable v : nat -> R.
  Hypothesis HK : forall x y, known (dyn_mask c) b x = true -> b_T b x = Some y -> pure y = true -> rT (AMem x) = tden v y.
  Hypothesis HMs : forall p y u, (p < 4)%nat -> nth_error (b_P b) p = Some (Some y, u) -> pure y = true -> rT (AMass p) = tden v y.
  Notation dT := (denT (num:=num) rT rC : sT -> R).
  Notation dC := (denC (num:=num) rT rC : sC -> C).
  Lemma tdenD_ok x : (denD (num:=num) x : R) = tdenD x.
  Proof.
    induction x as [[n d]|a x IHx y IHy|x IHx|x IHx]; cbn [denD tdenD].
    - destruct d; try reflexivity. change (Q2R (n # 1) = IZR n). unfold Q2R. cbn. field.
    - rewrite <- IHx, <- IHy. destruct a; reflexivity.
    - rewrite <- IHx. reflexivity.
    - rewrite <- IHx. reflexivity.
  Qed.
  Lemma closed_ok x : forall y, closed c b x = Some y -> dT x = tden v y.
  Proof.
    induction x as [z|d|a x IHx y IHy|x IHx|x IHx|x IHx|k| | |]; intros t H; cbn [closed] in H; try discriminate H.
    - injection H as <-. reflexivity.
    - destruct (pureD d); [|discriminate H]. injection H as <-. exact (tdenD_ok d).
    - destruct (closed c b x) as [x'|]; [|discriminate H]. destruct (closed c b y) as [y'|]; [|discriminate H]. injection H as <-.
      cbn [tden]. rewrite <- (IHx x' eq_refl), <- (IHy y' eq_refl). destruct a; reflexivity.
    - destruct (closed c b x) as [x'|]; [|discriminate H]. injection H as <-. cbn [tden]. rewrite <- (IHx x' eq_refl). reflexivity.
    - destruct (closed c b x) as [x'|]; [|discriminate H]. injection H as <-. cbn [tden]. rewrite <- (IHx x' eq_refl). reflexivity.
    - destruct (closed c b x) as [x'|]; [|discriminate H]. injection H as <-. cbn [tden]. rewrite <- (IHx x' eq_refl). reflexivity.
    - destruct k; try discriminate H.
      + destruct (known (dyn_mask c) b x) eqn:E1; [|discriminate H]. destruct (b_T b x) as [y|] eqn:E2; [|discriminate H].
        destruct (pure y) eqn:E3; [|discriminate H]. injection H as <-. exact (HK x y E1 E2 E3).
      + destruct (p <? 4) eqn:E0; [|discriminate H]. destruct (nth_error (b_P b) p) as [[[y|] u]|] eqn:E2; try discriminate H.
        destruct (pure y) eqn:E3; [|discriminate H]. injection H as <-. apply Nat.ltb_lt in E0. exact (HMs p y u E0 E2 E3).
  Qed.
  Variable col : list nat.
  Variable z : list Z.
  Let E (k : nat) : ends2 := end2 st eps (q k) (label_of c z k).
  Definition rowval (w : row) : C :=
    Cmult (RtoC (tden v (w_c w))) (Cmult (Cmult (tensor_at (w_t w) col) (pval E (w_p w))) (Cinv (dC (den_in (w_r w) (w_ch w))))).
  Lemma row_ok t x w : row_of c b t x = Some w ->
    Cmult (tensor_at t col) (tval st eps rT rC q (label_of c z) x) = rowval w.
  Proof.
    unfold row_of. destruct x as [co ls ds]. cbn [t_co t_leafs t_dens].
    destruct ls as [|f [|g [|]]]; try discriminate. destruct ds as [|[r k] [|]]; try discriminate.
    destruct (closed c b co) as [y|] eqn:EC; [|discriminate]. intros [= <-]. unfold rowval, tval, lprod, dprod, pval. cbn [w_c w_t w_p w_r w_ch t_co t_leafs t_dens fold_right fst snd].
    rewrite (closed_ok _ _ EC). fold E. ring.
  Qed.
  Lemma all_some_sum {A B} (f : A -> option B) (F : A -> C) (G : B -> C) : (forall x y, f x = Some y -> F x = G y) ->
    forall l l', all_some f l = Some l' -> Csum F l = Csum G l'.
  Proof.
    intros H. induction l as [|x l IH]; cbn [all_some]; intros l' E0; [injection E0 as <-; reflexivity|].
    destruct (f x) as [y|] eqn:Ex; [|discriminate E0]. destruct (all_some f l) as [k|]; [|discriminate E0]. injection E0 as <-. cbn [Csum].
    rewrite (H x y Ex), (IH k eq_refl). reflexivity.
  Qed.
  Lemma Csum_concat {A} (F : A -> C) l : Csum F (concat l) = Csum (Csum F) l.
  Proof. induction l as [|x l IH]; cbn [concat Csum]; [reflexivity|]. rewrite Csum_app, IH. reflexivity. Qed.
  Variable M : id -> list Z -> C.
  Hypothesis HV : forall mt y, In mt (structures c) -> pinner (Qj (thepat c)) c b1 (fst mt) z = POk y -> M (fst mt) z = dC y.
  Lemma rows_value rows : rows_of c z = Some rows -> amplitude c M z col = Csum rowval rows.
  Proof.
    unfold rows_of. rewrite EB, EA. destruct (all_some (rows_in c b b1 z) (structures c)) as [l|] eqn:EL; [|discriminate]. intros [= <-].
    rewrite Csum_concat. unfold amplitude. revert l EL HV. generalize (structures c).
    induction l as [|mt ms IH]; cbn [all_some]; intros l EL HV; [injection EL as <-; reflexivity|].
    destruct (rows_in c b b1 z mt) as [rs|] eqn:ER; [|discriminate EL]. destruct (all_some (rows_in c b b1 z) ms) as [k|]; [|discriminate EL]. injection EL as <-.
    cbn [Csum]. rewrite <- (IH k eq_refl (fun mt' y H => HV mt' y (or_intror H))). f_equal. clear IH.
    unfold rows_in in ER. destruct (pinner (Qj (thepat c)) c b1 (fst mt) z) as [|?|y] eqn:EY; try discriminate ER.
    destruct (flat (props c) (thepat c) (label_of c z) y) as [ts|] eqn:EF; [|discriminate ER].
    rewrite (HV mt y (or_introl eq_refl) EY), (flat_ok st eps rT rC q (thepat c) HM HP HA (props c) (label_of c z) y ts EF), <- Csum_scal.
    exact (all_some_sum _ _ _ (row_ok (snd mt)) ts rs ER).
  Qed.
  (** propagators *)
  Variable P : standard_model.
  Variable p4 : nat -> nat -> R.
  Hypothesis Hq : forall k mu, k < 4 -> mu < 4 -> p4 k mu = pvec (q k) mu.
  Lemma den_value r k bo : k < 3 -> rT (APm r) = b_mass P bo -> rT (APw r) = b_width P bo -> dC (den_in r k) = den_at P p4 bo k.
  Proof.
    intros Hk H1 H2. unfold den_at, propagator_den. rewrite <- H1, <- H2.
    assert (K : forall x0 x1 x2 x3 : sT, dC (denominator (num:=snum) (mkPropagator (num:=snum) (TAt (APm r)) (TAt (APw r))) (V4 (x0 : T snum) (x1 : T snum) (x2 : T snum) (x3 : T snum))) =
      ((dT x0 * dT x0 - dT x1 * dT x1 - dT x2 * dT x2 - dT x3 * dT x3 - rT (APm r) * rT (APm r))%R, (- rT (APm r) * rT (APw r))%R)) by reflexivity.
    unfold den_in, schannel. cbv zeta. rewrite K. clear K.
    apply (f_equal2 pair); [|ring]. f_equal. unfold square4, transfer, ingoing.
    destruct k as [|[|[|k]]]; [..|lia].
    all: cbn [goes_out Nat.leb]; rewrite !Hq by lia.
    - assert (K : forall a, dT (TOp Add (TAt (AMom 0 a)) (TAt (AMom 1 a))) = (rT (AMom 0 a) + rT (AMom 1 a))%R) by reflexivity.
      rewrite !K, !HM by lia. unfold pvec. cbn [comp]. reflexivity.
    - assert (K : forall a, dT (TOp Sub (TAt (AMom 0 a)) (TAt (AMom 2 a))) = (rT (AMom 0 a) - rT (AMom 2 a))%R) by reflexivity.
      rewrite !K, !HM by lia. unfold pvec. cbn [comp]. reflexivity.
    - assert (K : forall a, dT (TOp Sub (TAt (AMom 0 a)) (TAt (AMom 3 a))) = (rT (AMom 0 a) - rT (AMom 3 a))%R) by reflexivity.
      rewrite !K, !HM by lia. unfold pvec. cbn [comp]. reflexivity.
  Qed.
End Code.
