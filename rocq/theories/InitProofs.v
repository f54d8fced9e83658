(** * Which calls read uninitialised members *)
From Verif Require Import Base Scalar Linear Particle Sproduct World.
Open Scope st_scope.

Section Init.
  Context {num : Num}.
  Notation particle := (particle num).
  Notation sproduct := (sproduct num).
  Notation store := (store num).
  Notation heap := (heap num).
  Notation world := (world num).

  Definition good {A} (r : outcome A) : Prop := r <> UB ReadIndeterminate.
  Definition inited (c : cell num) : Prop := match c with Val _ => True | Indet _ => False end.
  Lemma rd_inited c : inited c -> exists v, c = Val v.
  Proof. destruct c; simpl; intros H; [eauto|contradiction]. Qed.
  (** mass and momentum have values *)
  Definition based (P : particle) : Prop :=
    inited (pa_m P) /\ inited (v_0 (pa_p P)) /\ inited (v_1 (pa_p P)) /\
    inited (v_2 (pa_p P)) /\ inited (v_3 (pa_p P)).
  (** so do the angles and magnitudes *)
  Definition full (P : particle) : Prop :=
    inited (pa_pmag P) /\ inited (pa_pxymag P) /\ inited (pa_theta P) /\ inited (pa_phi P).

  (** I is kept whatever the outcome, and nothing indeterminate is read. *)
  Definition keeps {S A} (I : S -> Prop) (x : ST S A) : Prop :=
    forall s, I s -> good (fst (x s)) /\ I (snd (x s)).

  Lemma keeps_bind {S A B} (I : S -> Prop) (x : ST S A) (f : A -> ST S B) :
    keeps I x -> (forall a, keeps I (f a)) -> keeps I (sbind x f).
  Proof.
    intros Hx Hf s Hs. destruct (Hx s Hs) as [G1 G2]. unfold sbind.
    destruct (x s) as [[a|e|u] s']; cbn [fst snd] in *.
    - exact (Hf a s' G2).
    - split; [discriminate|exact G2].
    - split; [|exact G2]. intros E. apply G1. injection E as ->. reflexivity.
  Qed.
  Lemma keeps_ret {S A} (I : S -> Prop) (a : A) : keeps I (sret a).
  Proof. intros s Hs. split; [discriminate|exact Hs]. Qed.
  Lemma keeps_throw {S A} (I : S -> Prop) e : keeps I (sthrow (A:=A) e).
  Proof. intros s Hs. split; [discriminate|exact Hs]. Qed.
  Lemma keeps_lift {S A} (I : S -> Prop) (r : outcome A) : good r -> keeps I (slift r).
  Proof. intros H s Hs. split; [exact H|exact Hs]. Qed.
  Lemma keeps_smap {S A B} (I : S -> Prop) (f : A -> B) (x : ST S A) : keeps I x -> keeps I (smap f x).
  Proof. intros H. apply keeps_bind; [exact H|intro; apply keeps_ret]. Qed.

  (** ** One particle *)
  Definition cellsof (P : particle) := (pa_m P, pa_p P, (pa_pmag P, pa_pxymag P, pa_theta P, pa_phi P)).
  Lemma cells_reset (P : particle) : cellsof (reset_caches P) = cellsof P.
  Proof.
    unfold reset_caches.
    assert (V : forall ks (Q : particle), cellsof (fold_left (fun Q k => w_vec k None Q) ks Q) = cellsof Q).
    { induction ks as [|k ks IH]; intros Q; [reflexivity|]. cbn [fold_left]. rewrite IH. reflexivity. }
    assert (M : forall ks (Q : particle), cellsof (fold_left (fun Q k => w_mat k None Q) ks Q) = cellsof Q).
    { induction ks as [|k ks IH]; intros Q; [reflexivity|]. cbn [fold_left]. rewrite IH. reflexivity. }
    rewrite V, M. reflexivity.
  Qed.
  Lemma based_cells (P Q : particle) : cellsof P = cellsof Q -> based Q -> based P.
  Proof. unfold cellsof, based. intros [= -> -> _ _ _ _] H. exact H. Qed.
  Lemma full_cells (P Q : particle) : cellsof P = cellsof Q -> full Q -> full P.
  Proof. unfold cellsof, full. intros [= _ _ -> -> -> ->] H. exact H. Qed.

  Lemma polar_good r t : good (polar (num:=num) r t).
  Proof. unfold polar. destruct (strict num), (tgeb r (tZ 0)); discriminate. Qed.

  Lemma update_init (P : particle) : based P ->
    good (fst (update P)) /\ based (snd (update P)) /\
    (fst (update P) = Ok tt -> full (snd (update P))) /\ (full P -> full (snd (update P))).
  Proof.
    destruct P as [m [p0 p1 p2 p3] pm pxy th ph c s sc rp rm mt vc].
    intros (Hm & H0 & H1 & H2 & H3). cbn in Hm, H0, H1, H2, H3.
    apply rd_inited in Hm, H0, H1, H2, H3.
    destruct Hm as [m' ->], H0 as [q0 ->], H1 as [q1 ->], H2 as [q2 ->], H3 as [q3 ->].
    unfold update, sbind, modify, get, w_pxymag, w_pmag, f_p0, f_p1, f_p2, f_p3.
    cbn [rd v_0 v_1 v_2 v_3 pa_p pa_m pa_pmag pa_pxymag].
    match goal with |- context [if ?b then _ else _] => destruct b end.
    - unfold sthrow. cbn [fst snd]. split; [discriminate|]. split; [|split; [discriminate|]].
      + unfold based; cbn; auto 8.
      + unfold full; cbn. intuition.
    - cbn [rd w_theta w_phi pa_theta pa_phi pa_p pa_m pa_pmag pa_pxymag]. unfold slift.
      match goal with |- context [polar ?a ?b] =>
        pose proof (polar_good a b) as G; destruct (polar a b) as [z|e|u] end; cbn [fst snd].
      + split; [discriminate|]. split; [|split].
        * eapply based_cells; [apply cells_reset|]. unfold based; cbn; auto 8.
        * intros _. eapply full_cells; [apply cells_reset|]. unfold full; cbn; auto 8.
        * intros _. eapply full_cells; [apply cells_reset|]. unfold full; cbn; auto 8.
      + split; [discriminate|]. split; [unfold based; cbn; auto 8|].
        split; [discriminate|]. intros _. unfold full; cbn; auto 8.
      + split; [intros E; apply G; injection E as ->; reflexivity|]. split; [unfold based; cbn; auto 8|].
        split; [discriminate|]. intros _. unfold full; cbn; auto 8.
  Qed.
  Lemma set_momentum_init q (P : particle) : inited (pa_m P) ->
    good (fst (set_momentum q P)) /\ based (snd (set_momentum q P)) /\
    (fst (set_momentum q P) = Ok tt -> full (snd (set_momentum q P))) /\
    (full P -> full (snd (set_momentum q P))).
  Proof.
    intros H. unfold set_momentum, sbind, modify.
    assert (HB : based (w_p (cells q) P)) by (unfold based; cbn; auto 8).
    destruct (update_init _ HB) as (A & B & C & D).
    split; [exact A|]. split; [exact B|]. split; [exact C|]. intros F. apply D. exact F.
  Qed.

  (** What the state of one particle must satisfy for a call. *)
  Definition needs_angles (o : pcall num) : bool :=
    match o with CTestAngles | CMat _ | CGenerator _ => true | _ => false end.
  (** based, and full if b *)
  Definition pinv (b : bool) (P : particle) : Prop := based P /\ (b = true -> full P).

  Lemma pinv_cells b (P Q : particle) : cellsof P = cellsof Q -> pinv b Q -> pinv b P.
  Proof. intros E [A B]. split; [eapply based_cells; eauto|intros H; eapply full_cells; eauto]. Qed.
  Lemma keeps_memo_mat b k f : (forall P, pinv b P -> good (f P)) -> keeps (pinv b) (memo_mat (num:=num) k f).
  Proof.
    intros Hf P HP. unfold memo_mat. destruct (pa_mat P k); [split; [discriminate|exact HP]|].
    pose proof (Hf P HP) as G. destruct (f P) as [v|e|u]; cbn [fst snd].
    - split; [discriminate|]. eapply pinv_cells; [|exact HP]. reflexivity.
    - split; [discriminate|exact HP].
    - split; [intros E; apply G; injection E as ->; reflexivity|exact HP].
  Qed.
  Lemma keeps_memo_vec b k f : (forall P, pinv b P -> good (f P)) -> keeps (pinv b) (memo_vec (num:=num) k f).
  Proof.
    intros Hf P HP. unfold memo_vec. destruct (pa_vec P k); [split; [discriminate|exact HP]|].
    pose proof (Hf P HP) as G. destruct (f P) as [v|e|u]; cbn [fst snd].
    - split; [discriminate|]. eapply pinv_cells; [|exact HP]. reflexivity.
    - split; [discriminate|exact HP].
    - split; [intros E; apply G; injection E as ->; reflexivity|exact HP].
  Qed.
  Lemma keeps_const b {A} (f : particle -> outcome A) :
    (forall P, pinv b P -> good (f P)) -> keeps (pinv b) (sconst f).
  Proof. intros H P HP. split; [apply H, HP|exact HP]. Qed.

  Lemma obind_good {A B} (x : outcome A) (f : A -> outcome B) :
    good x -> (forall a, good (f a)) -> good (obind x f).
  Proof.
    intros Hx Hf. destruct x as [a|e|u]; cbn; [apply Hf|discriminate|].
    intros E; apply Hx; injection E as ->; reflexivity.
  Qed.
  Lemma rd_good c : inited c -> good (rd c).
  Proof. intros H. apply rd_inited in H. destruct H as [v ->]. discriminate. Qed.
  Ltac reads :=
    repeat first
      [ apply obind_good; [first [apply rd_good; assumption | apply polar_good]|intros ?]
      | match goal with |- good (if ?b then _ else _) => destruct b end
      | discriminate ].

  Ltac open_pinv HP :=
    destruct HP as [(B1 & B2 & B3 & B4 & B5) F]; try destruct (F eq_refl) as (F1 & F2 & F3 & F4).
  Lemma keeps_mass b : keeps (pinv b) (sconst (mass (num:=num))).
  Proof. apply keeps_const. intros P HP. open_pinv HP. apply rd_good, B1. Qed.
  Lemma keeps_spinor0 b d : keeps (pinv b) (spinor0 (num:=num) d).
  Proof. apply keeps_memo_vec. intros P HP. open_pinv HP; reads. Qed.
  Lemma keeps_spinor2 b d j u : keeps (pinv b) (spinor2 (num:=num) d j u).
  Proof.
    unfold spinor2. destruct (_ && _); [apply keeps_throw|].
    apply keeps_memo_vec. intros P HP. open_pinv HP; reads.
  Qed.
  Lemma keeps_mat k : keeps (pinv true) (mat_accessor (num:=num) k).
  Proof. destruct k; apply keeps_memo_mat; intros P HP; open_pinv HP; unfold umat_value, lmat_value; reads. Qed.

  Lemma pre_minus_good P x : pinv true P -> good (pre_minus (num:=num) P x).
  Proof. intros HP. open_pinv HP. unfold pre_minus. reads. Qed.
  Lemma pre_plus_good P x : pinv true P -> good (pre_plus (num:=num) P x).
  Proof. intros HP. open_pinv HP. unfold pre_plus. reads. Qed.

  Lemma pstep_init b o : (needs_angles o = true -> b = true) -> keeps (pinv b) (pstep (num:=num) o).
  Proof.
    intros Hb. destruct o; cbn [pstep needs_angles] in *; apply keeps_smap.
    - intros P [(B1 & B2) F]. split; [discriminate|]. split; [split; [exact I|exact B2]|exact F].
    - intros P [(B1 & B2) F]. destruct (set_momentum_init q P B1) as (G1 & G2 & G3 & G4).
      split; [exact G1|]. split; [exact G2|auto].
    - intros P [B F]. destruct (update_init P B) as (G1 & G2 & G3 & G4).
      split; [exact G1|]. split; [exact G2|auto].
    - apply keeps_mass.
    - apply keeps_const. intros P HP. open_pinv HP; unfold get_momentum, f_p0, f_p1, f_p2, f_p3;
        repeat match goal with |- good (if ?b then _ else _) => destruct b end;
        try (apply rd_good; assumption); discriminate.
    - rewrite (Hb eq_refl). apply keeps_const. intros P HP. open_pinv HP. unfold test_angles, f_p0, f_p1, f_p2, f_p3. reads.
    - rewrite (Hb eq_refl). apply keeps_mat.
    - apply keeps_spinor0.
    - apply keeps_spinor2.
    - apply keeps_spinor2.
    - unfold spinor_matrix. apply keeps_bind; [apply keeps_spinor2|intros v].
      apply keeps_bind; [apply keeps_spinor2|intros w]. apply keeps_lift. discriminate.
    - rewrite (Hb eq_refl). apply keeps_const. intros P HP.
      assert (G1 := pre_minus_good P (tZ 0) HP). assert (G2 := pre_plus_good P (tZ 1) HP).
      open_pinv HP.
      destruct g; unfold generator_matrix;
        try (apply obind_good; [assumption|intros ?]); reads.
  Qed.

  (** ** Particles and one sproduct *)
  Lemma nth_hset (h : heap) a P : forall b,
    nth_error (hset h a P) b = if Nat.eqb a b then match nth_error h b with Some _ => Some P | None => None end
                               else nth_error h b.
  Proof.
    revert a; induction h as [|Q h IH]; intros [|a] [|b]; cbn; auto.
    destruct (Nat.eqb a b); reflexivity.
  Qed.
  (** every particle based, those in [given] full *)
  Definition hinv (given : list addr) (h : heap) : Prop :=
    forall a P, nth_error h a = Some P -> based P /\ (In a given -> full P).
  Definition spinv (given : list addr) (sp : sproduct) : Prop :=
    (forall a, In a (sp_mid sp) -> In a given).
  Definition sinv (given : list addr) (s : store) : Prop := hinv given (fst s) /\ spinv given (snd s).

  Lemma keeps_call {A} given a (f : ST particle A) :
    (forall b, (In a given -> b = true) -> (b = true -> In a given) -> keeps (pinv b) f) ->
    keeps (sinv given) (call a f).
  Proof.
    intros Hf [h sp] [Hh Hs]. unfold call. cbn [fst snd] in *.
    destruct (nth_error h a) as [P|] eqn:E; [|split; [discriminate|split; assumption]].
    destruct (in_dec Nat.eq_dec a given) as [Hin|Hout].
    - destruct (Hf true ltac:(auto) ltac:(auto) P) as [G1 G2].
      { destruct (Hh a P E). split; auto. }
      destruct (f P) as [r P']. cbn [fst snd] in *. split; [exact G1|]. split; [|exact Hs].
      intros b Q. cbn [fst]. rewrite nth_hset. destruct (Nat.eqb a b) eqn:Eb.
      + apply Nat.eqb_eq in Eb. subst b. rewrite E. intros [= <-]. destruct G2; auto.
      + apply Hh.
    - destruct (Hf false ltac:(intros; contradiction) ltac:(discriminate) P) as [G1 G2].
      { destruct (Hh a P E). split; [auto|discriminate]. }
      destruct (f P) as [r P']. cbn [fst snd] in *. split; [exact G1|]. split; [|exact Hs].
      intros b Q. cbn [fst]. rewrite nth_hset. destruct (Nat.eqb a b) eqn:Eb.
      + apply Nat.eqb_eq in Eb. subst b. rewrite E. intros [= <-]. destruct G2; split; [auto|intros; contradiction].
      + apply Hh.
  Qed.
  Lemma keeps_call_any {A} given a (f : ST particle A) :
    (forall b, keeps (pinv b) f) -> keeps (sinv given) (call a f).
  Proof. intros H. apply keeps_call. intros. apply H. Qed.
  Lemma keeps_call_given {A} given a (f : ST particle A) :
    In a given -> keeps (pinv true) f -> keeps (sinv given) (call a f).
  Proof. intros Ha H. apply keeps_call. intros b H1 _. rewrite (H1 Ha). exact H. Qed.
  Lemma keeps_call_opt {A} given a (f : ST particle A) :
    (forall b, keeps (pinv b) f) -> keeps (sinv given) (call_opt a f).
  Proof.
    intros H. destruct a; [apply keeps_call_any, H|]. apply keeps_lift. discriminate.
  Qed.
  Lemma keeps_sgets {A} given (f : sproduct -> A) : keeps (sinv given) (sgets f).
  Proof. intros s Hs. split; [discriminate|exact Hs]. Qed.
  Lemma keeps_smodify given (f : sproduct -> sproduct) :
    (forall sp, sp_mid (f sp) = sp_mid sp) -> keeps (sinv given) (smodify f).
  Proof.
    intros Hf [h sp] [Hh Hs]. split; [discriminate|]. split; [exact Hh|].
    unfold spinv. cbn [fst snd smodify]. rewrite Hf. exact Hs.
  Qed.
  Lemma keeps_mul_rest given ps : (forall a, In a ps -> In a given) ->
    forall lower, keeps (sinv given) (mul_rest (num:=num) lower ps).
  Proof.
    induction ps as [|a ps IH]; intros H lower; [apply keeps_ret|]. cbn [mul_rest].
    apply keeps_bind.
    - apply keeps_call_given; [apply H; left; reflexivity|].
      destruct lower; [apply (keeps_mat LoMat)|apply (keeps_mat UpMat)].
    - intros m. apply keeps_bind; [apply keeps_smodify; reflexivity|intros _].
      apply IH. intros b Hb. apply H. right. exact Hb.
  Qed.
  Lemma keeps_read {A} given (f : sproduct -> ST store A) :
    (forall sp, spinv given sp -> keeps (sinv given) (f sp)) ->
    keeps (sinv given) (sbind (sgets (fun sp => sp)) f).
  Proof. intros H [h sp] [Hh Hs]. exact (H sp Hs (h, sp) (conj Hh Hs)). Qed.
  Lemma sp_update_init given : keeps (sinv given) (sp_update (num:=num)).
  Proof.
    unfold sp_update.
    apply keeps_bind; [apply keeps_smodify; reflexivity|intros _].
    apply keeps_bind; [apply keeps_smodify; reflexivity|intros _].
    apply keeps_bind; [apply keeps_sgets|intros pL].
    apply keeps_bind; [apply keeps_sgets|intros pR].
    apply keeps_bind; [apply keeps_call_opt; intros; apply keeps_mass|intros mL].
    apply keeps_bind; [destruct (negb _); [apply keeps_smodify; reflexivity|apply keeps_ret]|intros _].
    apply keeps_bind; [apply keeps_call_opt; intros; apply keeps_mass|intros mR].
    apply keeps_bind; [destruct (negb _); [apply keeps_smodify; reflexivity|apply keeps_ret]|intros _].
    (* the sproduct read back is the current one, so its internal momenta are given *)
    apply keeps_read. intros sp Hs.
    destruct (negb (sp_Lmassive sp) && negb (sp_Lupper sp)); [apply keeps_throw|].
    destruct (negb (sp_Rmassive sp) && negb (sp_Rupper sp)); [apply keeps_throw|].
    assert (K : keeps (sinv given) (smodify (s_prod (no_prod (num:=num))) ;;
       match sp_mid sp with [] => sret tt | a :: ps => build_pMat (sp_angle sp) a ps end)).
    { apply keeps_bind; [apply keeps_smodify; reflexivity|intros _].
      unfold spinv in Hs. destruct (sp_mid sp) as [|a ps]; [apply keeps_ret|].
      unfold build_pMat. destruct (sp_angle sp).
      - apply keeps_bind; [apply keeps_call_given; [apply Hs; left; reflexivity|apply (keeps_mat LoMat)]|intros m].
        apply keeps_bind; [apply keeps_smodify; reflexivity|intros _].
        apply keeps_mul_rest. intros b Hb. apply Hs. right. exact Hb.
      - apply keeps_bind; [apply keeps_call_given; [apply Hs; left; reflexivity|apply (keeps_mat UpMat)]|intros m].
        apply keeps_bind; [apply keeps_smodify; reflexivity|intros _].
        apply keeps_mul_rest. intros b Hb. apply Hs. right. exact Hb. }
    exact K.
  Qed.
  Lemma keeps_v_compute given l r :
    (forall b d, keeps (pinv b) (l d)) -> (forall b d, keeps (pinv b) (r d)) ->
    keeps (sinv given) (v_compute (num:=num) l r).
  Proof.
    intros Hl Hr. unfold v_compute. apply keeps_bind; [apply keeps_sgets|intros sp].
    apply keeps_bind; [apply keeps_call_opt; intros; apply Hl|intros v].
    apply keeps_bind; [apply keeps_call_opt; intros; apply Hr|intros w]. apply keeps_ret.
  Qed.
  Lemma keeps_v_memo given i j x : keeps (sinv given) x -> keeps (sinv given) (v_memo (num:=num) i j x).
  Proof.
    intros H. unfold v_memo. apply keeps_bind; [apply keeps_sgets|intros [c|]]; [apply keeps_ret|].
    apply keeps_bind; [exact H|intros z]. apply keeps_bind; [apply keeps_smodify; reflexivity|intros _; apply keeps_ret].
  Qed.
  Lemma keeps_v0 given : keeps (sinv given) (v0 (num:=num)).
  Proof.
    unfold v0. apply keeps_bind; [apply keeps_sgets|intros sp]. destruct (_ || _); [apply keeps_throw|].
    apply keeps_v_memo, keeps_v_compute; intros; apply keeps_spinor0.
  Qed.
  Lemma keeps_v1 given s : keeps (sinv given) (v1 (num:=num) s).
  Proof.
    unfold v1. apply keeps_bind; [apply keeps_sgets|intros sp]. destruct (sp_Lmassive sp).
    - destruct (sp_Rmassive sp); [apply keeps_throw|].
      apply keeps_v_memo, keeps_v_compute; intros; [apply keeps_spinor2|apply keeps_spinor0].
    - destruct (sp_Rmassive sp); [|apply keeps_throw].
      apply keeps_v_memo, keeps_v_compute; intros; [apply keeps_spinor0|apply keeps_spinor2].
  Qed.
  Lemma keeps_v2 given s t : keeps (sinv given) (v2 (num:=num) s t).
  Proof.
    unfold v2. apply keeps_bind; [apply keeps_sgets|intros sp]. destruct (_ || _); [apply keeps_throw|].
    apply keeps_v_memo, keeps_v_compute; intros; apply keeps_spinor2.
  Qed.

  (** ** The whole world *)
  Definition winv (given : list addr) (w : world) : Prop :=
    hinv given (w_heap w) /\ (forall sp, In sp (w_sps w) -> spinv given sp) /\
    (forall a, In a given -> a < length (w_heap w)).

  Lemma hinv_weaken g g' (h : heap) : (forall a, In a g' -> In a g) -> hinv g h -> hinv g' h.
  Proof. intros H K a P E. destruct (K a P E). split; auto. Qed.
  Lemma In_lset {A} (l : list A) i x y : In y (lset l i x) -> y = x \/ In y l.
  Proof.
    revert i; induction l as [|z l IH]; intros [|i] H; cbn in H.
    - contradiction.
    - contradiction.
    - destruct H as [<-|H]; [left; reflexivity|right; right; exact H].
    - destruct H as [<-|H]; [right; left; reflexivity|].
      destruct (IH i H) as [->|K]; [left; reflexivity|right; right; exact K].
  Qed.
  Lemma hset_length (h : heap) a P : length (hset h a P) = length h.
  Proof. revert a; induction h as [|Q h IH]; intros [|a]; cbn; auto. Qed.

  Lemma call_length {A} a (f : ST particle A) (s : store) : length (fst (snd (call a f s))) = length (fst s).
  Proof.
    destruct s as [h sp]. unfold call. destruct (nth_error h a) as [P|]; [|reflexivity].
    destruct (f P) as [r P']. cbn. apply hset_length.
  Qed.
  Definition same_length {A} (x : ST store A) : Prop := forall s, length (fst (snd (x s))) = length (fst s).
  Lemma sl_bind {A B} (x : ST store A) (f : A -> ST store B) :
    same_length x -> (forall a, same_length (f a)) -> same_length (sbind x f).
  Proof.
    intros Hx Hf s. unfold sbind. specialize (Hx s). destruct (x s) as [[a|e|u] s']; cbn [snd] in *; auto.
    rewrite Hf. exact Hx.
  Qed.
  Lemma sl_call_opt {A} a (f : ST particle A) : same_length (call_opt a f).
  Proof. destruct a; [intros s; apply call_length|intros s; reflexivity]. Qed.
  Lemma sl_pure {A} (x : ST store A) : (forall s, fst (snd (x s)) = fst s) -> same_length x.
  Proof. intros H s. now rewrite H. Qed.
  Lemma sl_mul_rest ps : forall lower, same_length (mul_rest (num:=num) lower ps).
  Proof.
    induction ps as [|a ps IH]; intros lower; [apply sl_pure; reflexivity|]. cbn [mul_rest].
    apply sl_bind; [intros s; apply call_length|intros m]. apply sl_bind; [apply sl_pure; reflexivity|intros _; apply IH].
  Qed.
  Ltac sl := repeat first
    [ apply sl_call_opt | apply sl_mul_rest | intros ?; apply call_length
    | apply sl_bind; [|intros ?]
    | match goal with |- same_length (if ?b then _ else _) => destruct b end
    | match goal with |- same_length (match ?b with [] => _ | _ => _ end) => destruct b end
    | match goal with |- same_length (match ?b with Some _ => _ | _ => _ end) => destruct b end
    | apply sl_pure; reflexivity ].
  Lemma sl_update : same_length (sp_update (num:=num)).
  Proof. unfold sp_update, build_pMat. sl. Qed.
  Lemma sl_v0 : same_length (v0 (num:=num)).
  Proof. unfold v0, v_memo, v_compute. sl. Qed.
  Lemma sl_v1 s : same_length (v1 (num:=num) s).
  Proof. unfold v1, v_memo, v_compute. sl. Qed.
  Lemma sl_v2 s t : same_length (v2 (num:=num) s t).
  Proof. unfold v2, v_memo, v_compute. sl. Qed.

  Lemma keeps_on_sp {A} given i (f : ST store A) :
    keeps (sinv given) f -> same_length f -> keeps (winv given) (on_sp i f).
  Proof.
    intros Hf Hl w (Hh & Hs & Hg). unfold on_sp.
    destruct (nth_error (w_sps w) i) as [sp|] eqn:E; [|split; [discriminate|split; auto]].
    destruct (Hf (w_heap w, sp)) as [G1 G2].
    { split; [exact Hh|]. apply Hs. eapply nth_error_In; eauto. }
    specialize (Hl (w_heap w, sp)).
    destruct (f (w_heap w, sp)) as [r [h sp']]. cbn [fst snd] in *. split; [exact G1|].
    destruct G2 as [G2 G3]. cbn [fst snd] in *. split; [exact G2|]. cbn [w_heap w_sps]. split.
    - intros sp0 H. apply In_lset in H. destruct H as [->|H]; auto.
    - intros a Ha. rewrite Hl. auto.
  Qed.

  (** One call made with care: what it may be, and which particles have a momentum after. *)
  Definition allowed (given : list addr) (c : wcall num) : Prop :=
    match c with
    | WDefault _ | WSDefault => False
    | WPart a (CTestAngles | CMat _ | CGenerator _) => In a given
    | WSMake _ _ _ mid _ _ => forall a, In a mid -> In a given
    | _ => True
    end.
  Definition given_after (given : list addr) (c : wcall num) (w : world) : list addr :=
    match c, fst (wstep c w) with
    | WMom _ _ _, Ok _ => length (w_heap w) :: given
    | WPart a (CSetMomentum _ | CUpdate), Ok _ => a :: given
    | _, _ => given
    end.

  Lemma winv_keep {A B} given (f : A -> B) (x : ST world A) w :
    keeps (winv given) x -> winv given w -> good (fst (smap f x w)) /\ winv given (snd (smap f x w)).
  Proof. intros H Hw. exact (keeps_smap _ f x H w Hw). Qed.
  Lemma hinv_app given (h : heap) P :
    (forall a, In a given -> a < length h) -> hinv given h -> based P -> hinv given (h ++ [P]).
  Proof.
    intros Hg Hh HP a Q E. destruct (Nat.lt_ge_cases a (length h)) as [L|L].
    - rewrite nth_error_app1 in E by exact L. apply (Hh a Q E).
    - rewrite nth_error_app2 in E by exact L. destruct (a - length h) as [|k] eqn:D.
      + injection E as <-. split; [exact HP|]. intros Ha. apply Hg in Ha. lia.
      + destruct k; discriminate.
  Qed.
  Lemma hinv_app_full given (h : heap) P :
    (forall a, In a given -> a < length h) -> hinv given h -> based P -> full P ->
    hinv (length h :: given) (h ++ [P]).
  Proof.
    intros Hg Hh HP HF a Q E. destruct (Nat.lt_ge_cases a (length h)) as [L|L].
    - rewrite nth_error_app1 in E by exact L. destruct (Hh a Q E) as [A B]. split; [exact A|].
      intros [Ha|Ha]; [lia|auto].
    - rewrite nth_error_app2 in E by exact L. destruct (a - length h) as [|k] eqn:D.
      + injection E as <-. split; [exact HP|auto].
      + destruct k; discriminate.
  Qed.
  Lemma good_omap {A B} (f : A -> B) (r : outcome A) : good r -> good (omap f r).
  Proof. intros H. destruct r; [discriminate|discriminate|]. intros E. apply H. injection E as ->. reflexivity. Qed.

  Lemma spart_step given w a P o : winv given w -> nth_error (w_heap w) a = Some P ->
    (needs_angles o = true -> In a given) ->
    good (fst (pstep o P)) /\
    winv given (mkWorld (hset (w_heap w) a (snd (pstep o P))) (w_sps w)) /\ based P /\ a < length (w_heap w).
  Proof.
    intros (Hh & Hs & Hg) E Ho.
    assert (L : a < length (w_heap w)) by (apply nth_error_Some; congruence).
    assert (HB := proj1 (Hh a P E)).
    assert (K : good (fst (pstep o P)) /\ (based (snd (pstep o P)) /\ (In a given -> full (snd (pstep o P))))).
    { destruct (in_dec Nat.eq_dec a given) as [Hin|Hout].
      - destruct (pstep_init true o ltac:(auto) P) as [G1 [G2 G3]].
        { destruct (Hh a P E). split; auto. }
        auto.
      - destruct (pstep_init false o ltac:(intros H; contradiction (Hout (Ho H))) P) as [G1 [G2 G3]].
        { split; [exact HB|discriminate]. }
        split; [exact G1|]. split; [exact G2|intros; contradiction]. }
    destruct K as [K1 K2]. split; [exact K1|]. split; [|split; assumption].
    split; [|split; [exact Hs|]].
    - intros b Q. cbn [w_heap]. rewrite nth_hset. destruct (Nat.eqb a b) eqn:Eb.
      + apply Nat.eqb_eq in Eb. subst b. rewrite E. intros [= <-]. exact K2.
      + apply Hh.
    - intros b Hb. cbn [w_heap]. rewrite hset_length. auto.
  Qed.
  Lemma winv_more given (h : heap) sps a P : winv given (mkWorld (hset h a P) sps) -> full P -> a < length h ->
    winv (a :: given) (mkWorld (hset h a P) sps).
  Proof.
    intros (Hh & Hs & Hg) HF L. cbn [w_heap w_sps] in *. split; [|split].
    - intros b Q E. destruct (Hh b Q E) as [A B]. split; [exact A|]. intros [<-|Hb]; [|auto].
      cbn [w_heap] in E. rewrite nth_hset, Nat.eqb_refl in E. destruct (nth_error h a); [|discriminate].
      injection E as <-. exact HF.
    - intros sp Hsp b Hb. right. apply (Hs sp Hsp b Hb).
    - intros b [<-|Hb]; cbn [w_heap]; [rewrite hset_length; exact L|auto].
  Qed.

  Lemma wstep_init given c w : winv given w -> allowed given c ->
    good (fst (wstep c w)) /\ winv (given_after given c w) (snd (wstep c w)).
  Proof.
    intros HW HA. assert (HW' := HW). destruct HW' as (Hh & Hs & Hg).
    destruct c; cbn [allowed] in HA; try contradiction.
    - (* particle(mass) *)
      unfold given_after. cbn [wstep fst snd]. split; [discriminate|]. split; [|split; [exact Hs|]]; cbn [w_heap].
      + apply hinv_app; auto. unfold based; cbn; auto 8.
      + intros a Ha. rewrite app_length. cbn. apply Hg in Ha. lia.
    - (* particle(q,mass) *)
      unfold given_after. cbn [wstep]. unfold particle_new.
      match goal with |- context [update ?P] =>
        assert (HB : based P) by (unfold based; cbn; auto 8);
        destruct (update_init P HB) as (G1 & G2 & G3 & _); destruct (update P) as [r P'] end.
      cbn [fst snd] in *. destruct r as [[]|e|u]; cbn [fst snd].
      + split; [discriminate|]. split; [|split]; cbn [w_heap w_sps].
        * apply hinv_app_full; auto.
        * intros sp Hsp b Hb. right. apply (Hs sp Hsp b Hb).
        * intros b [<-|Hb]; rewrite app_length; cbn; [lia|apply Hg in Hb; lia].
      + split; [discriminate|exact HW].
      + split; [intros E; apply G1; injection E as ->; reflexivity|exact HW].
    - (* a call on a particle *)
      unfold given_after. cbn [wstep]. destruct (nth_error (w_heap w) a) as [P|] eqn:E.
      2:{ split; [discriminate|]. destruct o; exact HW. }
      assert (Ho : needs_angles o = true -> In a given) by (destruct o; cbn; intros; try discriminate; exact HA).
      destruct (spart_step given w a P o HW E Ho) as (G1 & G2 & HB & L).
      destruct (pstep o P) as [r P'] eqn:EP. cbn [fst snd] in *. split; [apply good_omap, G1|].
      destruct o; try exact G2.
      + rewrite EP. destruct r as [v|e|u]; [|exact G2|exact G2]. cbn [omap fst snd].
        apply winv_more; [exact G2| |exact L].
        cbn [pstep] in EP. unfold smap, sbind in EP.
        destruct (set_momentum_init q P (proj1 HB)) as (_ & _ & F & _).
        destruct (set_momentum q P) as [[[]|e|u] P1]; [|discriminate|discriminate].
        injection EP as _ <-. apply F. reflexivity.
      + rewrite EP. destruct r as [v|e|u]; [|exact G2|exact G2]. cbn [omap fst snd].
        apply winv_more; [exact G2| |exact L].
        cbn [pstep] in EP. unfold smap, sbind in EP.
        destruct (update_init P HB) as (_ & _ & F & _).
        destruct (update P) as [[[]|e|u] P1]; [|discriminate|discriminate].
        injection EP as _ <-. apply F. reflexivity.
    - (* constructing a spinor product *)
      unfold given_after. cbn [wstep]. unfold sp_construct.
      match goal with |- context [sp_update ?s] =>
        destruct (sp_update_init given s) as [G1 [G2 G3]]; [split; [exact Hh|exact HA]|];
        pose proof (sl_update s) as HL; destruct (sp_update s) as [r [h sp]] end.
      cbn [fst snd] in *. destruct r as [[]|e|u]; cbn [fst snd]; (split; [|split; [exact G2|split]]).
      + discriminate.
      + cbn [w_sps]. intros sp' H. apply in_app_iff in H. destruct H as [H|[<-|[]]]; auto.
      + intros b Hb. cbn [w_heap]. rewrite HL. auto.
      + discriminate.
      + exact Hs.
      + intros b Hb. cbn [w_heap]. rewrite HL. auto.
      + intros E; apply G1; injection E as ->; reflexivity.
      + exact Hs.
      + intros b Hb. cbn [w_heap]. rewrite HL. auto.
    - (* assignment of spinor products *)
      unfold given_after. cbn [wstep].
      destruct (nth_error (w_sps w) i); [|split; [discriminate|exact HW]].
      destruct (nth_error (w_sps w) j) as [sp|] eqn:E; [|split; [discriminate|exact HW]].
      cbn [fst snd]. split; [discriminate|]. split; [exact Hh|]. split; [|exact Hg].
      cbn [w_sps]. intros sp' H. apply In_lset in H. destruct H as [->|H]; [|auto].
      apply Hs. eapply nth_error_In; eauto.
    - apply (winv_keep given (fun _ => RUnit)); [apply keeps_on_sp; [apply sp_update_init|apply sl_update]|exact HW].
    - apply (winv_keep given RVal); [apply keeps_on_sp; [apply keeps_v0|apply sl_v0]|exact HW].
    - apply (winv_keep given RVal); [apply keeps_on_sp; [apply keeps_v1|apply sl_v1]|exact HW].
    - apply (winv_keep given RVal); [apply keeps_on_sp; [apply keeps_v2|apply sl_v2]|exact HW].
  Qed.
End Init.
