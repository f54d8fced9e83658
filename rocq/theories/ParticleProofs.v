(** * Generic facts about particle: no assumption on the arithmetic *)
From Verif Require Import Base Scalar Linear Particle.
Open Scope st_scope.

Section ParticleProofs.
  Context {num : Num}.
  Notation T := (T num).
  Notation particle := (particle num).

  (** Two particles no call can tell apart: same readable cells, same complex
      members, same cache contents. *)
  Record peq (P Q : particle) : Prop := mkPeq {
    pe_m : rd (pa_m P) = rd (pa_m Q);
    pe_p0 : rd (f_p0 P) = rd (f_p0 Q);
    pe_p1 : rd (f_p1 P) = rd (f_p1 Q);
    pe_p2 : rd (f_p2 P) = rd (f_p2 Q);
    pe_p3 : rd (f_p3 P) = rd (f_p3 Q);
    pe_pmag : rd (pa_pmag P) = rd (pa_pmag Q);
    pe_pxymag : rd (pa_pxymag P) = rd (pa_pxymag Q);
    pe_theta : rd (pa_theta P) = rd (pa_theta Q);
    pe_phi : rd (pa_phi P) = rd (pa_phi Q);
    pe_c : pa_c P = pa_c Q;
    pe_s : pa_s P = pa_s Q;
    pe_sc : pa_sc P = pa_sc Q;
    pe_rtp : pa_rtp P = pa_rtp Q;
    pe_rtm : pa_rtm P = pa_rtm Q;
    pe_mat : forall k, pa_mat P k = pa_mat Q k;
    pe_vec : forall k, pa_vec P k = pa_vec Q k
  }.

  Lemma peq_refl P : peq P P.
  Proof. constructor; reflexivity. Qed.

  Definition srel {A} (x y : ST particle A) : Prop :=
    forall P Q, peq P Q -> fst (x P) = fst (y Q) /\ peq (snd (x P)) (snd (y Q)).

  Lemma srel_bind {A B} (x y : ST particle A) (f g : A -> ST particle B) :
    srel x y -> (forall a, srel (f a) (g a)) -> srel (sbind x f) (sbind y g).
  Proof.
    intros Hx Hf P Q HPQ. destruct (Hx P Q HPQ) as [H1 H2]. unfold sbind.
    destruct (x P) as [rx Px], (y Q) as [ry Qy]; simpl in *; subst ry.
    destruct rx as [a|e|u]; simpl; auto. apply Hf; exact H2.
  Qed.
  Lemma srel_ret {A} (a : A) : srel (sret a) (sret a).
  Proof. intros P Q H; simpl; auto. Qed.
  Lemma srel_lift {A} (a : outcome A) : srel (slift a) (slift a).
  Proof. intros P Q H; simpl; auto. Qed.
  Lemma srel_throw {A} e : srel (sthrow (A:=A) e) (sthrow e).
  Proof. intros P Q H; simpl; auto. Qed.
  Lemma srel_get f : (forall P Q, peq P Q -> rd (f P) = rd (f Q)) -> srel (get f) (get f).
  Proof. intros Hf P Q H; unfold get; simpl; auto. Qed.
  Lemma srel_const {A} (f : particle -> outcome A) :
    (forall P Q, peq P Q -> f P = f Q) -> srel (sconst f) (sconst f).
  Proof. intros Hf P Q H; unfold sconst; simpl; auto. Qed.
  Lemma srel_modify f :
    (forall P Q, peq P Q -> peq (f P) (f Q)) -> srel (modify f) (modify f).
  Proof. intros Hf P Q H; unfold modify; simpl; auto. Qed.
  Lemma srel_if {A} (b : bool) (x y z w : ST particle A) :
    srel x y -> srel z w -> srel (if b then x else z) (if b then y else w).
  Proof. destruct b; auto. Qed.

  Ltac peq_field := intros P Q H; destruct H; constructor; simpl; auto;
    try (intros; match goal with |- (if ?b then _ else _) = _ => destruct b; auto end).

  Lemma peq_w_p x : forall P Q, peq P Q -> peq (w_p x P) (w_p x Q).
  Proof. peq_field. Qed.
  Lemma peq_w_m x : forall P Q, peq P Q -> peq (w_m x P) (w_m x Q).
  Proof. peq_field. Qed.
  Lemma peq_w_pmag x : forall P Q, peq P Q -> peq (w_pmag x P) (w_pmag x Q).
  Proof. peq_field. Qed.
  Lemma peq_w_pxymag x : forall P Q, peq P Q -> peq (w_pxymag x P) (w_pxymag x Q).
  Proof. peq_field. Qed.
  Lemma peq_w_theta x : forall P Q, peq P Q -> peq (w_theta x P) (w_theta x Q).
  Proof. peq_field. Qed.
  Lemma peq_w_phi x : forall P Q, peq P Q -> peq (w_phi x P) (w_phi x Q).
  Proof. peq_field. Qed.
  Lemma peq_w_c x : forall P Q, peq P Q -> peq (w_c x P) (w_c x Q).
  Proof. peq_field. Qed.
  Lemma peq_w_s x : forall P Q, peq P Q -> peq (w_s x P) (w_s x Q).
  Proof. peq_field. Qed.
  Lemma peq_w_sc x : forall P Q, peq P Q -> peq (w_sc x P) (w_sc x Q).
  Proof. peq_field. Qed.
  Lemma peq_w_rtp x : forall P Q, peq P Q -> peq (w_rtp x P) (w_rtp x Q).
  Proof. peq_field. Qed.
  Lemma peq_w_rtm x : forall P Q, peq P Q -> peq (w_rtm x P) (w_rtm x Q).
  Proof. peq_field. Qed.
  Lemma peq_w_mat k x : forall P Q, peq P Q -> peq (w_mat k x P) (w_mat k x Q).
  Proof. peq_field. Qed.
  Lemma peq_w_vec k x : forall P Q, peq P Q -> peq (w_vec k x P) (w_vec k x Q).
  Proof. peq_field. Qed.

  Lemma peq_reset : forall P Q, peq P Q -> peq (reset_caches P) (reset_caches Q).
  Proof.
    intros P Q H; unfold reset_caches.
    assert (Hm : forall l P Q, peq P Q ->
              peq (fold_left (fun Q k => w_mat k None Q) l P)
                  (fold_left (fun Q k => w_mat k None Q) l Q)).
    { intros l; induction l as [|k l IH]; intros A B HAB; simpl; auto using peq_w_mat. }
    assert (Hv : forall l P Q, peq P Q ->
              peq (fold_left (fun Q k => w_vec k None Q) l P)
                  (fold_left (fun Q k => w_vec k None Q) l Q)).
    { intros l; induction l as [|k l IH]; intros A B HAB; simpl; auto using peq_w_vec. }
    apply Hv, Hm, H.
  Qed.

  Hint Resolve peq_w_p peq_w_m peq_w_pmag peq_w_pxymag peq_w_theta peq_w_phi peq_w_c peq_w_s
       peq_w_sc peq_w_rtp peq_w_rtm peq_w_mat peq_w_vec peq_reset : peq.

  Ltac srel_tac :=
    repeat match goal with
    | |- srel (sbind _ _) (sbind _ _) => apply srel_bind; [|intro]
    | |- srel (get _) (get _) => apply srel_get; intros ? ? []; assumption
    | |- srel (modify _) (modify _) => apply srel_modify; auto with peq
    | |- srel (if _ then _ else _) _ => apply srel_if
    | |- srel (sthrow _) _ => apply srel_throw
    | |- srel (slift _) _ => apply srel_lift
    | |- srel (sret _) _ => apply srel_ret
    end.

  Lemma srel_update : srel (update (num:=num)) update.
  Proof. unfold update; srel_tac. Qed.

  Lemma srel_memo_vec k f :
    (forall P Q, peq P Q -> f P = f Q) -> srel (memo_vec k f) (memo_vec k f).
  Proof.
    intros Hf P Q H. unfold memo_vec. rewrite <- (pe_vec _ _ H k), <- (Hf P Q H).
    destruct (pa_vec P k) as [v|]; simpl; auto.
    destruct (f P) as [v|e|u]; simpl; auto with peq.
  Qed.
  Lemma srel_memo_mat k f :
    (forall P Q, peq P Q -> f P = f Q) -> srel (memo_mat k f) (memo_mat k f).
  Proof.
    intros Hf P Q H. unfold memo_mat. rewrite <- (pe_mat _ _ H k), <- (Hf P Q H).
    destruct (pa_mat P k) as [v|]; simpl; auto.
    destruct (f P) as [v|e|u]; simpl; auto with peq.
  Qed.

  Lemma spinor_value_peq k P Q : peq P Q -> spinor_value k P = spinor_value k Q.
  Proof.
    intros H. unfold spinor_value.
    rewrite (pe_c _ _ H), (pe_s _ _ H), (pe_sc _ _ H), (pe_rtp _ _ H), (pe_rtm _ _ H).
    reflexivity.
  Qed.
  Ltac peq_rw H :=
    rewrite ?(pe_m _ _ H), ?(pe_p0 _ _ H), ?(pe_p1 _ _ H), ?(pe_p2 _ _ H), ?(pe_p3 _ _ H),
      ?(pe_pmag _ _ H), ?(pe_pxymag _ _ H), ?(pe_theta _ _ H), ?(pe_phi _ _ H),
      ?(pe_c _ _ H), ?(pe_s _ _ H), ?(pe_sc _ _ H), ?(pe_rtp _ _ H), ?(pe_rtm _ _ H).

  Lemma srel_spinor0 d : srel (spinor0 (num:=num) d) (spinor0 d).
  Proof.
    apply srel_memo_vec; intros P Q H. peq_rw H. rewrite (spinor_value_peq _ _ _ H). reflexivity.
  Qed.
  Lemma srel_spinor2 d j u : srel (spinor2 (num:=num) d j u) (spinor2 d j u).
  Proof.
    unfold spinor2. destruct (_ && _); [apply srel_throw|].
    apply srel_memo_vec; intros P Q H. peq_rw H. rewrite (spinor_value_peq _ _ _ H). reflexivity.
  Qed.
  Lemma srel_mat k : srel (mat_accessor (num:=num) k) (mat_accessor k).
  Proof.
    destruct k; apply srel_memo_mat; intros P Q H; unfold umat_value, lmat_value; peq_rw H; reflexivity.
  Qed.
  Lemma generator_peq g P Q : peq P Q -> generator_matrix g P = generator_matrix g Q.
  Proof.
    intros H; destruct g; unfold generator_matrix, pre_minus, pre_plus; peq_rw H; reflexivity.
  Qed.

  Lemma srel_pstep o : srel (pstep (num:=num) o) (pstep o).
  Proof.
    destruct o as [x|q| | |mu| |k|d|d j|d j u|d u|g]; unfold pstep, smap;
      (apply srel_bind; [|intro; apply srel_ret]).
    - apply srel_modify; auto with peq.
    - apply srel_bind; [apply srel_modify; auto with peq|intros; apply srel_update].
    - apply srel_update.
    - apply srel_const; intros P Q H; unfold mass; peq_rw H; reflexivity.
    - apply srel_const; intros P Q H; unfold get_momentum; peq_rw H; reflexivity.
    - apply srel_const; intros P Q H; unfold test_angles; peq_rw H; reflexivity.
    - apply srel_mat.
    - apply srel_spinor0.
    - apply srel_spinor2.
    - apply srel_spinor2.
    - unfold spinor_matrix. apply srel_bind; [apply srel_spinor2|intro a].
      apply srel_bind; [apply srel_spinor2|intro b]. apply srel_lift.
    - apply srel_const; intros P Q H. apply generator_peq; exact H.
  Qed.

  Lemma prun_peq h : forall P Q, peq P Q ->
    fst (prun h P) = fst (prun h Q) /\ peq (snd (prun h P)) (snd (prun h Q)).
  Proof.
    induction h as [|o h IH]; intros P Q H; simpl; auto.
    destruct (srel_pstep o P Q H) as [H1 H2].
    destruct (pstep o P) as [r P'], (pstep o Q) as [r' Q']; simpl in *; subst r'.
    destruct (IH P' Q' H2) as [H3 H4].
    destruct (prun h P') as [rs P''], (prun h Q') as [rs' Q'']; simpl in *; subst; auto.
  Qed.

  (** Every cache is emptied by [reset_caches]. *)
  Lemma reset_mat (P : particle) k : pa_mat (reset_caches P) k = None.
  Proof. destruct k; reflexivity. Qed.
  Lemma reset_vec (P : particle) k : pa_vec (reset_caches P) k = None.
  Proof. destruct k as [d k]; destruct d, k; reflexivity. Qed.

  Lemma peq_reset_of (P Q : particle) :
    rd (pa_m P) = rd (pa_m Q) -> pa_p P = pa_p Q -> pa_pmag P = pa_pmag Q ->
    pa_pxymag P = pa_pxymag Q -> pa_theta P = pa_theta Q -> pa_phi P = pa_phi Q ->
    pa_c P = pa_c Q -> pa_s P = pa_s Q -> pa_sc P = pa_sc Q -> pa_rtp P = pa_rtp Q ->
    pa_rtm P = pa_rtm Q -> peq (reset_caches P) (reset_caches Q).
  Proof.
    intros H1 H2 H3 H4 H5 H6 H7 H8 H9 H10 H11.
    constructor; try (unfold f_p0, f_p1, f_p2, f_p3; cbn; rewrite ?H2; congruence); intros k.
    - rewrite !reset_mat; reflexivity.
    - rewrite !reset_vec; reflexivity.
  Qed.

  (** Only the mass cell of the state before set_momentum matters, both for the
      outcome and for what any later call returns. *)
  Lemma set_momentum_only_mass q (P Q : particle) :
    rd (pa_m P) = rd (pa_m Q) ->
    fst (set_momentum q P) = fst (set_momentum q Q) /\
    (fst (set_momentum q P) = Ok tt ->
     peq (snd (set_momentum q P)) (snd (set_momentum q Q))).
  Proof.
    intros Hm. unfold set_momentum, update, sbind, modify, get, w_p, w_pxymag, w_pmag, f_p0, f_p1, f_p2, f_p3.
    cbn [rd v_0 v_1 v_2 v_3 pa_p pa_m pa_pmag pa_pxymag cells].
    rewrite Hm. destruct (rd (pa_m Q)) as [m|e|u] eqn:EQ; cbn [fst snd]; [|split; [reflexivity|discriminate]..].
    match goal with |- context [if ?b then sthrow _ else _] => destruct b end;
      unfold sthrow; cbn [fst snd]; [split; [reflexivity|discriminate]|].
    cbn [rd w_theta w_phi pa_theta pa_phi pa_p pa_m pa_pmag pa_pxymag].
    unfold slift. destruct (polar _ _) as [s|e|u]; cbn [fst snd]; [|split; [reflexivity|discriminate]..].
    split; [reflexivity|intros _].
    apply peq_reset_of; [change (rd (pa_m P) = rd (pa_m Q)); congruence|reflexivity..].
  Qed.

  (** ** Transparency of the caches *)
  Definition mat_value (k : matkey) (P : particle) : outcome (cmatrix num) :=
    match k with UpMat => umat_value P | LoMat => lmat_value P end.
  (** What the computing branch of a spinor accessor produces. *)
  Definition vec_value (k : veckey) (P : particle) : outcome (cvector num) :=
    let! m := rd (pa_m P) in
    match snd k with
    | M0 => if negb (teqb m (tZ 0)) then Exn MassNonzero else Ok (spinor_value k P)
    | _ => if teqb m (tZ 0) then Exn MassZero else Ok (spinor_value k P)
    end.

  (** Every cached value is what would be computed now. *)
  Record coh (P : particle) : Prop := mkCoh {
    coh_mat : forall k v, pa_mat P k = Some v -> mat_value k P = Ok v;
    coh_vec : forall k v, pa_vec P k = Some v -> vec_value k P = Ok v
  }.

  (** The same object with all flags false. *)
  Definition uncached (P : particle) : particle :=
    mkParticle (pa_m P) (pa_p P) (pa_pmag P) (pa_pxymag P) (pa_theta P) (pa_phi P)
      (pa_c P) (pa_s P) (pa_sc P) (pa_rtp P) (pa_rtm P) no_mat no_vec.

  Lemma uncached_idem P : uncached (uncached P) = uncached P.
  Proof. reflexivity. Qed.
  Lemma coh_uncached P : coh (uncached P).
  Proof. split; simpl; unfold no_mat, no_vec; intros; discriminate. Qed.
  Lemma mat_value_uncached k P : mat_value k (uncached P) = mat_value k P.
  Proof. destruct k; reflexivity. Qed.
  Lemma vec_value_uncached k P : vec_value k (uncached P) = vec_value k P.
  Proof. reflexivity. Qed.

  Lemma matkey_eqb_eq a b : matkey_eqb a b = true -> a = b.
  Proof. destruct a, b; simpl; congruence. Qed.
  Lemma veckey_eqb_eq a b : veckey_eqb a b = true -> a = b.
  Proof.
    destruct a as [d k], b as [d' k']; unfold veckey_eqb; simpl.
    destruct d, d'; simpl; try discriminate; destruct k, k'; simpl; try discriminate; reflexivity.
  Qed.

  (** A call that neither sees nor harms: from a coherent state it returns what it
      returns with empty caches, leaves a coherent state and changes only caches. *)
  Definition transparent {A} (x : ST particle A) : Prop :=
    forall P, coh P ->
      fst (x P) = fst (x (uncached P)) /\ coh (snd (x P)) /\ uncached (snd (x P)) = uncached P.

  Lemma transparent_memo_mat k : transparent (memo_mat k (mat_value k)).
  Proof.
    intros P HP. unfold memo_mat. simpl (pa_mat (uncached P) k). unfold no_mat.
    rewrite mat_value_uncached.
    destruct (pa_mat P k) as [v|] eqn:E.
    - rewrite (coh_mat _ HP _ _ E). simpl. auto.
    - destruct (mat_value k P) as [v|e|u] eqn:V; simpl; auto.
      split; [reflexivity|split; [|reflexivity]].
      destruct HP as [Hm Hv]. split.
      + intros k' v'. simpl. destruct (matkey_eqb k k') eqn:K.
        * apply matkey_eqb_eq in K; subst k'. intros [= ->].
          rewrite <- mat_value_uncached in V |- *. exact V.
        * intros H. apply Hm in H. rewrite <- mat_value_uncached in H |- *. exact H.
      + intros k' v' H. exact (Hv k' v' H).
  Qed.
  Lemma transparent_memo_vec k f :
    (forall P, f P = vec_value k P) -> transparent (memo_vec k f).
  Proof.
    intros Hf P HP. unfold memo_vec. simpl (pa_vec (uncached P) k). unfold no_vec.
    rewrite !Hf, vec_value_uncached.
    destruct (pa_vec P k) as [v|] eqn:E.
    - rewrite (coh_vec _ HP _ _ E). simpl. auto.
    - destruct (vec_value k P) as [v|e|u] eqn:V; simpl; auto.
      split; [reflexivity|split; [|reflexivity]].
      destruct HP as [Hm Hv]. split.
      + intros k' v' H. apply Hm in H. rewrite <- mat_value_uncached in H |- *. exact H.
      + intros k' v'. simpl. destruct (veckey_eqb k k') eqn:K.
        * apply veckey_eqb_eq in K; subst k'. intros [= ->]. exact V.
        * intros H. exact (Hv k' v' H).
  Qed.
  Lemma transparent_bind {A B} (x : ST particle A) (f : A -> ST particle B) :
    transparent x -> (forall a, transparent (f a)) -> transparent (sbind x f).
  Proof.
    intros Hx Hf P HP. destruct (Hx P HP) as (H1 & H2 & H3). unfold sbind.
    destruct (x P) as [rx Px] eqn:EP, (x (uncached P)) as [ry Py] eqn:EU; simpl in *; subst ry.
    destruct (Hx _ (coh_uncached P)) as (_ & G2 & G3). rewrite EU in G2, G3. simpl in G2, G3.
    destruct rx as [a|e|u]; simpl; auto.
    destruct (Hf a Px H2) as (K1 & K2 & K3).
    destruct (Hf a Py G2) as (L1 & _ & _).
    rewrite K1, L1, G3, H3, uncached_idem, K3. auto.
  Qed.
  Lemma transparent_ret {A} (a : A) : transparent (sret a).
  Proof. intros P HP; simpl; auto. Qed.
  Lemma transparent_lift {A} (a : outcome A) : transparent (slift a).
  Proof. intros P HP; simpl; auto. Qed.
  Lemma transparent_throw {A} e : transparent (sthrow (A:=A) e).
  Proof. intros P HP; simpl; auto. Qed.
  Lemma transparent_const {A} (f : particle -> outcome A) :
    (forall P, f (uncached P) = f P) -> transparent (sconst f).
  Proof. intros Hf P HP; unfold sconst; simpl; rewrite Hf; auto. Qed.

  Lemma transparent_mat k : transparent (mat_accessor (num:=num) k).
  Proof. destruct k; apply transparent_memo_mat. Qed.
  Lemma transparent_spinor0 d : transparent (spinor0 (num:=num) d).
  Proof. apply transparent_memo_vec. intros P; reflexivity. Qed.
  Lemma transparent_spinor2 d j u : transparent (spinor2 (num:=num) d j u).
  Proof.
    unfold spinor2. destruct (_ && _); [apply transparent_throw|].
    apply transparent_memo_vec. intros P. unfold vec_value, kind_of.
    destruct (j =? -1)%Z, u; reflexivity.
  Qed.
  Lemma transparent_accessor o : is_accessor o = true -> transparent (pstep (num:=num) o).
  Proof.
    destruct o as [x|q| | |mu| |k|d|d j|d j u|d u|g]; simpl; intros Ho; try discriminate;
      unfold smap; (apply transparent_bind; [|intro; apply transparent_ret]).
    - apply transparent_const; reflexivity.
    - apply transparent_const; reflexivity.
    - apply transparent_const; reflexivity.
    - apply transparent_mat.
    - apply transparent_spinor0.
    - apply transparent_spinor2.
    - apply transparent_spinor2.
    - unfold spinor_matrix. apply transparent_bind; [apply transparent_spinor2|intro a].
      apply transparent_bind; [apply transparent_spinor2|intro b]. apply transparent_lift.
    - apply transparent_const; intros P; destruct g; reflexivity.
  Qed.

  Lemma prun_transparent h : forall P, coh P -> forallb is_accessor h = true ->
    fst (prun h P) = map (fun o => fst (pstep o (uncached P))) h /\
    coh (snd (prun h P)) /\ uncached (snd (prun h P)) = uncached P.
  Proof.
    induction h as [|o h IH]; intros P HP Hh; simpl in *; auto.
    apply andb_prop in Hh as [Ho Hh].
    destruct (transparent_accessor o Ho P HP) as (H1 & H2 & H3).
    destruct (pstep o P) as [r P'] eqn:E; simpl in H1, H2, H3; subst r.
    destruct (IH P' H2 Hh) as (K1 & K2 & K3).
    destruct (prun h P') as [rs P'']; simpl in *.
    rewrite H3 in K1. rewrite K1, K3, H3. auto.
  Qed.

  (** A successful update leaves every cache empty. *)
  Lemma update_ok_empty (P P' : particle) : update P = (Ok tt, P') ->
    (forall k, pa_mat P' k = None) /\ (forall k, pa_vec P' k = None).
  Proof.
    intros H. unfold update in H.
    repeat (match type of H with sbind _ (fun _ => _) _ = _ =>
              apply sbind_Ok_inv in H; destruct H as (? & ? & _ & H) end;
            cbn beta in H).
    match type of H with (if ?b then _ else _) _ = _ => destruct b end; [discriminate H|].
    repeat (match type of H with sbind _ (fun _ => _) _ = _ =>
              apply sbind_Ok_inv in H; destruct H as (? & ? & _ & H) end;
            cbn beta in H).
    unfold modify in H. injection H as <-.
    split; intros k; [apply reset_mat|apply reset_vec].
  Qed.
  Lemma empty_coh (P : particle) : (forall k, pa_mat P k = None) -> (forall k, pa_vec P k = None) -> coh P.
  Proof. intros H1 H2; split; intros k v; rewrite ?H1, ?H2; discriminate. Qed.
  Lemma empty_peq_uncached (P : particle) :
    (forall k, pa_mat P k = None) -> (forall k, pa_vec P k = None) -> peq P (uncached P).
  Proof. intros H1 H2; constructor; try reflexivity; intros k; rewrite ?H1, ?H2; reflexivity. Qed.
  Lemma set_momentum_ok_empty q (P P' : particle) : set_momentum q P = (Ok tt, P') ->
    (forall k, pa_mat P' k = None) /\ (forall k, pa_vec P' k = None).
  Proof. unfold set_momentum, sbind, modify. apply update_ok_empty. Qed.

  Lemma pstep_uncached_empty o (P : particle) :
    (forall k, pa_mat P k = None) -> (forall k, pa_vec P k = None) ->
    fst (pstep o (uncached P)) = fst (pstep o P).
  Proof.
    intros H1 H2. symmetry. apply (proj1 (srel_pstep o _ _ (empty_peq_uncached P H1 H2))).
  Qed.

  (** *** C01 *)
  Lemma set_momentum_like_fresh g q m (P : particle) :
    mass P = Ok m ->
    fst (set_momentum q P) = fst (particle_new g q m) /\
    (fst (set_momentum q P) = Ok tt ->
     forall h, fst (prun h (snd (set_momentum q P))) = fst (prun h (snd (particle_new g q m)))).
  Proof.
    intros Hm.
    destruct (set_momentum_only_mass q P (w_m (Val m) (particle_default g))) as [H1 H2].
    { simpl. exact Hm. }
    split; [exact H1|]. intros HOk h. specialize (H2 HOk).
    apply (proj1 (prun_peq h _ _ H2)).
  Qed.

  Lemma accessors_history_free q (P P' : particle) :
    set_momentum q P = (Ok tt, P') ->
    forall h, forallb is_accessor h = true ->
      fst (prun h P') = map (fun o => fst (pstep o P')) h.
  Proof.
    intros H h Hh. destruct (set_momentum_ok_empty q P P' H) as [E1 E2].
    destruct (prun_transparent h P' (empty_coh _ E1 E2) Hh) as (K & _ & _).
    rewrite K. apply map_ext. intros o. apply pstep_uncached_empty; auto.
  Qed.
End ParticleProofs.
