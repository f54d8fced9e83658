(** * What calls on a process object leave alone

    Facts that hold for every outcome, exceptions included. *)
From Coq Require Import QArith.
From Verif Require Import Base Scalar Linear Integers Particle Sproduct Propagator Process
  ParticleProofs WorldProofs Lang.
Close Scope Q_scope.
Open Scope st_scope.

Section Frame.
  Context {num : Num}.
  Notation T := (T num).
  Notation CX := (CX num).
  Notation particle := (particle num).
  Notation sproduct := (sproduct num).
  Notation heap := (heap num).
  Notation store := (store num).

  (** ** The mass of a particle *)
  Definition keeps_m {A} (x : ST particle A) : Prop := forall P, pa_m (snd (x P)) = pa_m P.
  Lemma keeps_bind {A B} (x : ST particle A) (f : A -> ST particle B) :
    keeps_m x -> (forall a, keeps_m (f a)) -> keeps_m (sbind x f).
  Proof.
    intros Hx Hf P. unfold sbind. specialize (Hx P). destruct (x P) as [[a|e|u] P']; cbn in *; auto.
    rewrite <- Hx. apply Hf.
  Qed.
  Lemma keeps_ret {A} (a : A) : keeps_m (sret a).
  Proof. intros P; reflexivity. Qed.
  Lemma keeps_lift {A} (a : outcome A) : keeps_m (slift a).
  Proof. intros P; reflexivity. Qed.
  Lemma keeps_throw {A} e : keeps_m (sthrow (A:=A) e).
  Proof. intros P; reflexivity. Qed.
  Lemma keeps_const {A} (f : particle -> outcome A) : keeps_m (sconst f).
  Proof. intros P; reflexivity. Qed.
  Lemma keeps_get f : keeps_m (get f).
  Proof. intros P; reflexivity. Qed.
  Lemma keeps_modify f : (forall P : particle, pa_m (f P) = pa_m P) -> keeps_m (modify f).
  Proof. intros H P. apply H. Qed.
  Lemma keeps_memo_vec k f : keeps_m (memo_vec k f).
  Proof. intros P. unfold memo_vec. destruct (pa_vec P k); [reflexivity|]. destruct (f P); reflexivity. Qed.
  Lemma keeps_memo_mat k f : keeps_m (memo_mat k f).
  Proof. intros P. unfold memo_mat. destruct (pa_mat P k); [reflexivity|]. destruct (f P); reflexivity. Qed.
  Lemma keeps_spinor0 d : keeps_m (spinor0 d).
  Proof. apply keeps_memo_vec. Qed.
  Lemma keeps_spinor2 d j u : keeps_m (spinor2 d j u).
  Proof. unfold spinor2. destruct (_ && _); [apply keeps_throw|apply keeps_memo_vec]. Qed.
  Lemma keeps_mat (b : bool) : keeps_m (if b then umat else lmat).
  Proof. destruct b; apply keeps_memo_mat. Qed.
  Lemma reset_m (P : particle) : pa_m (reset_caches P) = pa_m P.
  Proof. reflexivity. Qed.
  Lemma keeps_update : keeps_m update.
  Proof.
    unfold update.
    repeat first [ apply keeps_bind; [|intro] | apply keeps_get | apply keeps_throw | apply keeps_lift
                 | apply keeps_modify; intros; first [reflexivity | apply reset_m]
                 | match goal with |- keeps_m (if ?b then _ else _) => destruct b end ].
  Qed.
  Lemma keeps_set_momentum q : keeps_m (set_momentum q).
  Proof. apply keeps_bind; [apply keeps_modify; reflexivity|intro; apply keeps_update]. Qed.

  (** ** Heaps: the same particles with the same masses *)
  Definition hlm (h h' : heap) : Prop :=
    length h' = length h /\
    forall a P, nth_error h a = Some P -> exists P', nth_error h' a = Some P' /\ pa_m P' = pa_m P.
  Lemma hlm_refl h : hlm h h.
  Proof. split; eauto. Qed.
  Lemma hlm_trans h1 h2 h3 : hlm h1 h2 -> hlm h2 h3 -> hlm h1 h3.
  Proof.
    intros [L1 H1] [L2 H2]. split; [congruence|]. intros a P HP.
    destruct (H1 a P HP) as (P' & HP' & E). destruct (H2 a P' HP') as (P'' & HP'' & E').
    exists P''. split; congruence.
  Qed.
  Lemma hset_length (h : heap) a P : length (hset h a P) = length h.
  Proof. revert a; induction h as [|x h IH]; intros [|a]; cbn; congruence. Qed.
  Lemma hset_id (h : heap) a P : nth_error h a = Some P -> hset h a P = h.
  Proof. revert a; induction h as [|x h IH]; intros [|a]; cbn; intros E; try congruence. f_equal; auto. Qed.
  Lemma hlm_hset h a P P' : nth_error h a = Some P -> pa_m P' = pa_m P -> hlm h (hset h a P').
  Proof.
    intros E Em. split; [apply hset_length|]. intros b Q HQ. destruct (Nat.eq_dec a b) as [->|N].
    - exists P'. split; [eapply hset_same; eauto|]. congruence.
    - exists Q. rewrite hset_other by exact N. auto.
  Qed.

  (** ** Spinor products: the same particles *)
  Definition squiet {A} (x : ST store A) : Prop :=
    forall h sp, hlm h (fst (snd (x (h, sp)))) /\ same_static sp (snd (snd (x (h, sp)))).
  Lemma squiet_bind {A B} (x : ST store A) (f : A -> ST store B) :
    squiet x -> (forall a, squiet (f a)) -> squiet (sbind x f).
  Proof.
    intros Hx Hf h sp. specialize (Hx h sp). unfold sbind.
    destruct (x (h, sp)) as [[a|e|u] [h' sp']]; cbn in *; auto.
    destruct Hx as [H1 H2]. destruct (Hf a h' sp') as [H3 H4].
    split; [eapply hlm_trans; eauto|eapply same_static_trans; eauto].
  Qed.
  Lemma squiet_ret {A} (a : A) : squiet (sret a).
  Proof. intros h sp; split; [apply hlm_refl|apply same_static_refl]. Qed.
  Lemma squiet_lift {A} (a : outcome A) : squiet (slift a).
  Proof. intros h sp; split; [apply hlm_refl|apply same_static_refl]. Qed.
  Lemma squiet_throw {A} e : squiet (sthrow (A:=A) e).
  Proof. intros h sp; split; [apply hlm_refl|apply same_static_refl]. Qed.
  Lemma squiet_sgets {A} (f : sproduct -> A) : squiet (sgets f).
  Proof. intros h sp; split; [apply hlm_refl|apply same_static_refl]. Qed.
  Lemma squiet_smodify f : (forall sp : sproduct, same_static sp (f sp)) -> squiet (smodify f).
  Proof. intros H h sp; split; [apply hlm_refl|apply H]. Qed.
  Lemma squiet_if {A} (b : bool) (x y : ST store A) : squiet x -> squiet y -> squiet (if b then x else y).
  Proof. destruct b; auto. Qed.
  Lemma squiet_call {A} a (x : ST particle A) : keeps_m x -> squiet (call a x).
  Proof.
    intros Hx h sp. unfold call. destruct (nth_error h a) as [P|] eqn:E; cbn;
      [|split; [apply hlm_refl|apply same_static_refl]].
    specialize (Hx P). destruct (x P) as [r P']; cbn in *. split; [|apply same_static_refl].
    eapply hlm_hset; eauto.
  Qed.
  Lemma squiet_call_opt {A} a (x : ST particle A) : keeps_m x -> squiet (call_opt a x).
  Proof. intros Hx. destruct a; [apply squiet_call, Hx|apply squiet_lift]. Qed.

  Ltac sq := repeat first
    [ apply squiet_bind; [|intro] | apply squiet_smodify; intros ?; repeat split | apply squiet_sgets
    | apply squiet_ret | apply squiet_throw | apply squiet_lift
    | apply squiet_call_opt, keeps_const | apply squiet_if ].
  Lemma keeps_ul (lower : bool) : keeps_m (if lower then lmat else umat).
  Proof. destruct lower; apply keeps_memo_mat. Qed.
  Lemma squiet_mul_rest ps : forall lower, squiet (mul_rest lower ps).
  Proof.
    induction ps as [|a ps IH]; intros lower; cbn [mul_rest]; [apply squiet_ret|].
    apply squiet_bind; [apply squiet_call, keeps_ul|intros m]. sq. apply IH.
  Qed.
  Lemma squiet_update : squiet sp_update.
  Proof.
    unfold sp_update. sq. destruct (sp_mid _) as [|p ps]; [apply squiet_ret|].
    unfold build_pMat. apply squiet_if; (apply squiet_bind; [|intro; sq; apply squiet_mul_rest]).
    - apply squiet_call, (keeps_ul true).
    - apply squiet_call, (keeps_ul false).
  Qed.
  Lemma squiet_compute (l r : side -> ST particle (cvector num)) :
    (forall d, keeps_m (l d)) -> (forall d, keeps_m (r d)) -> squiet (v_compute l r).
  Proof. intros Hl Hr. unfold v_compute. sq; apply squiet_call_opt; auto. Qed.
  Lemma squiet_memo i j x : squiet x -> squiet (v_memo i j x).
  Proof. intros Hx. unfold v_memo. apply squiet_bind; [sq|intros [c|]]; sq. exact Hx. Qed.
  Lemma squiet_v0 : squiet v0.
  Proof.
    apply squiet_bind; [apply squiet_sgets|intros sp]. apply squiet_if; [apply squiet_throw|].
    apply squiet_memo, squiet_compute; intros; apply keeps_spinor0.
  Qed.
  Lemma squiet_v1 s : squiet (v1 s).
  Proof.
    apply squiet_bind; [apply squiet_sgets|intros sp].
    apply squiet_if; apply squiet_if; try apply squiet_throw;
      apply squiet_memo, squiet_compute; intros; first [apply keeps_spinor0 | apply keeps_spinor2].
  Qed.
  Lemma squiet_v2 s t : squiet (v2 s t).
  Proof.
    apply squiet_bind; [apply squiet_sgets|intros sp]. apply squiet_if; [apply squiet_throw|].
    apply squiet_memo, squiet_compute; intros; apply keeps_spinor2.
  Qed.

  (** ** Objects

      What calls may change: these ldouble members, the masses of these propagators and the
      masses of these particles. *)
  Definition hlw (free : nat -> bool) (h h' : heap) : Prop :=
    length h' = length h /\
    forall a P, nth_error h a = Some P -> exists P', nth_error h' a = Some P' /\
      (free a = false -> pa_m P' = pa_m P) /\
      forall m, pa_m P = Val m -> exists m', pa_m P' = Val m'.
  Lemma hlm_hlw free h h' : hlm h h' -> hlw free h h'.
  Proof.
    intros [L H]. split; [exact L|]. intros a P E. destruct (H a P E) as (P' & E1 & E2).
    exists P'. split; [exact E1|]. split; [auto|]. intros m Em. exists m. congruence.
  Qed.
  Lemma hlw_trans free h1 h2 h3 : hlw free h1 h2 -> hlw free h2 h3 -> hlw free h1 h3.
  Proof.
    intros [L1 H1] [L2 H2]. split; [congruence|]. intros a P HP.
    destruct (H1 a P HP) as (P' & HP' & E & V). destruct (H2 a P' HP') as (P'' & HP'' & E' & V').
    exists P''. split; [exact HP''|]. split; [intros F; rewrite E', E by exact F; reflexivity|].
    intros m Em. destruct (V m Em) as (m' & Em'). eauto.
  Qed.
  Lemma hlw_set_mass (free : nat -> bool) h a P x : free a = true -> nth_error h a = Some P ->
    hlw free h (hset h a (snd (set_mass x P))).
  Proof.
    intros F E. split; [apply hset_length|]. intros b Q HQ. destruct (Nat.eq_dec a b) as [->|N].
    - exists (snd (set_mass x P)). split; [eapply hset_same; eauto|]. split; [congruence|]. intros; exists x; reflexivity.
    - exists Q. rewrite hset_other by exact N. eauto.
  Qed.

  Record mask : Type := mkMask { k_T : id -> bool; k_R : id -> bool; k_P : nat -> bool }.
  (** [like k o o']: as far as calls that change no more than [k] can tell, the same object *)
  Variable dyn : mask.
  Record like (o o' : obj num) : Prop := mkLike {
    like_T : forall x, k_T dyn x = false -> o_T o' x = o_T o x;
    like_R : forall x, k_R dyn x = false -> o_R o' x = o_R o x;
    like_w : forall x, pr_w (o_R o' x) = pr_w (o_R o x);
    like_S : forall x, same_static (o_S o x) (o_S o' x);
    like_h : hlw (k_P dyn) (o_heap o) (o_heap o') }.
  Lemma like_refl o : like o o.
  Proof. constructor; auto using same_static_refl, hlm_refl, hlm_hlw. Qed.
  Lemma like_trans o1 o2 o3 : like o1 o2 -> like o2 o3 -> like o1 o3.
  Proof.
    intros [A1 A2 A5 A3 A4] [B1 B2 B5 B3 B4]. constructor; intros.
    - rewrite B1, A1; auto.
    - rewrite B2, A2; auto.
    - congruence.
    - eapply same_static_trans; eauto.
    - eapply hlw_trans; eauto.
  Qed.

  Variable junk : id -> nat -> T.
  Variable call : id -> list (arg num) -> ST (obj num) (option (ret num)).
  Definition oquiet {A} (x : ST (obj num) A) : Prop := forall o, like o (snd (x o)).
  Definition equiet {A} (x : ST (st num) A) : Prop := forall s, like (fst s) (fst (snd (x s))).
  Variable okm : id -> bool.               (* the methods other methods may call *)
  Hypothesis Hcall : forall m args, okm m = true -> oquiet (call m args).

  Lemma equiet_bind {A B} (x : ST (st num) A) (f : A -> ST (st num) B) :
    equiet x -> (forall a, equiet (f a)) -> equiet (sbind x f).
  Proof.
    intros Hx Hf s. specialize (Hx s). unfold sbind. destruct (x s) as [[a|e|u] s']; cbn in *; auto.
    eapply like_trans; [exact Hx|apply Hf].
  Qed.
  Lemma equiet_ret {A} (a : A) : equiet (sret a).
  Proof. intros s; apply like_refl. Qed.
  Lemma equiet_lift {A} (a : outcome A) : equiet (slift a).
  Proof. intros s; apply like_refl. Qed.
  Lemma equiet_throw {A} e : equiet (sthrow (A:=A) e).
  Proof. intros s; apply like_refl. Qed.
  Lemma equiet_geto {A} (f : obj num -> A) : equiet (geto f).
  Proof. intros s; apply like_refl. Qed.
  Lemma equiet_getl {A} (f : env num -> A) : equiet (getl f).
  Proof. intros s; apply like_refl. Qed.
  Lemma equiet_modl f : equiet (modl f).
  Proof. intros s; apply like_refl. Qed.
  Lemma equiet_modo f : (forall o, like o (f o)) -> equiet (modo f).
  Proof. intros H s; apply H. Qed.
  Lemma equiet_ono {A} (f : ST (obj num) A) : oquiet f -> equiet (ono f).
  Proof. intros H s. specialize (H (fst s)). unfold ono. destruct (f (fst s)); exact H. Qed.
  Lemma oquiet_part {A} p (f : ST particle A) : keeps_m f -> oquiet (on_part p f).
  Proof.
    intros H o. unfold on_part. destruct (nth_error (o_heap o) p) as [P|] eqn:E; [|apply like_refl].
    specialize (H P). destruct (f P) as [r P']. constructor; cbn; auto using same_static_refl.
    eapply hlm_hlw, hlm_hset; eauto.
  Qed.
  Lemma oquiet_sprod {A} s (f : ST store A) : squiet f -> oquiet (on_sprod s f).
  Proof.
    intros H o. unfold on_sprod. specialize (H (o_heap o) (o_S o s)).
    destruct (f (o_heap o, o_S o s)) as [r [h sp]]. destruct H as [H1 H2].
    constructor; cbn; auto using hlm_hlw. intros x. unfold upd. destruct (Pos.eqb_spec s x); [subst; exact H2|apply same_static_refl].
  Qed.
  Lemma oquiet_v s zs : oquiet (v_sem s zs).
  Proof.
    destruct zs as [|z [|z' [|]]]; cbn; try (intros o; apply like_refl);
      apply oquiet_sprod; auto using squiet_v0, squiet_v1, squiet_v2.
  Qed.

  Fixpoint frame_e {t} (e : exp t) : bool :=
    match e with
    | @EUn _ _ _ e => frame_e e
    | @EBin _ _ _ _ e f => frame_e e && frame_e f
    | EAnd e f => frame_e e && frame_e f
    | EOr e f => frame_e e && frame_e f
    | ECall m _ => okm m
    | ESpinor1 _ _ e => frame_e e
    | _ => true
    end.
  Lemma equiet_eval {t} (e : exp t) : frame_e e = true -> equiet (eval call e).
  Proof.
    induction e; cbn [eval frame_e]; intros H;
      try (apply andb_prop in H as [H1 H2]; specialize (IHe1 H1); specialize (IHe2 H2));
      try specialize (IHe H);
      repeat first [ apply equiet_bind; [|intro] | apply equiet_ret | apply equiet_lift | apply equiet_geto
                   | apply equiet_getl | assumption ].
    - destruct a; [assumption|apply equiet_ret].
    - destruct a; [apply equiet_ret|assumption].
    - apply equiet_ono, oquiet_v.
    - apply equiet_ono, Hcall, H.
    - destruct a1 as [[x|x]|]; first [apply equiet_ret|apply equiet_lift].
    - apply equiet_ono, oquiet_part, keeps_spinor0.
    - apply equiet_ono, oquiet_part, keeps_spinor2.
    - apply equiet_ono, oquiet_part, keeps_mat.
  Qed.

  (** Statements that may change nothing of this. *)
  Fixpoint frame_ok (s : stmt) : bool :=
    match s with
    | SSeq s1 s2 => frame_ok s1 && frame_ok s2
    | SIf b s1 s2 => frame_e b && (frame_ok s1 && frame_ok s2)
    | SFor _ lo cond next s => frame_e lo && frame_e cond && frame_e next && frame_ok s
    | SLoc _ _ e => frame_e e
    | SMemT x e => k_T dyn x && frame_e e
    | SSetMass p e => k_P dyn p && frame_e e
    | SPropMass r e => k_R dyn r && frame_e e
    | SMemC _ e => frame_e e
    | SArrT _ _ e => frame_e e
    | SArrC _ _ e => frame_e e
    | SReturnT e => frame_e e
    | SReturnC e => frame_e e
    | SParticle _ _ | SPropNew _ _ _ | SSprod _ _ _ _ _ => false
    | _ => true
    end.
  Lemma equiet_void (x : ST (st num) unit) : equiet x -> equiet (void x).
  Proof. intros H. apply equiet_bind; [exact H|intro; apply equiet_ret]. Qed.
  Lemma equiet_loop x cond next (body : ST (st num) (option (ret num))) fuel :
    frame_e cond = true -> frame_e next = true ->
    equiet body -> equiet (loop call fuel x cond next body).
  Proof.
    intros HC HN HB. induction fuel as [|fuel IH]; cbn [loop]; [apply equiet_lift|].
    apply equiet_bind; [apply equiet_eval, HC|intros [|]]; [|apply equiet_ret].
    apply equiet_bind; [exact HB|intros [r|]]; [apply equiet_ret|].
    apply equiet_bind; [apply equiet_eval, HN|intros z]. apply equiet_bind; [apply equiet_modl|intros _; exact IH].
  Qed.
  Lemma equiet_exec s : frame_ok s = true -> equiet (exec junk call s).
  Proof.
    induction s; cbn [exec frame_ok]; intros H; try discriminate H;
      repeat match goal with H : _ && _ = true |- _ => apply andb_prop in H as [? ?] end;
      repeat match goal with IH : _ = true -> _, H : _ = true |- _ => specialize (IH H) end;
      repeat first [ match goal with |- equiet (loop _ _ _ _ _ _) => apply equiet_loop; assumption end
                   | apply equiet_bind; [|intro] | apply equiet_ret | apply equiet_lift | apply equiet_throw
                   | apply equiet_geto | apply equiet_getl | apply equiet_void | apply equiet_modl
                   | apply equiet_eval; assumption | assumption ].
    - destruct a; [apply equiet_ret|assumption].
    - apply equiet_modo. intros o. constructor; cbn; auto using same_static_refl, hlm_refl, hlm_hlw.
      intros y Hy. unfold upd. destruct (Pos.eqb_spec x y); [congruence|reflexivity].
    - apply equiet_modo. intros o. constructor; cbn; auto using same_static_refl, hlm_refl, hlm_hlw.
    - destruct a; assumption.
    - apply equiet_ono. intros o. unfold on_part. destruct (nth_error (o_heap o) p) as [P|] eqn:E; [|apply like_refl].
      constructor; cbn; auto using same_static_refl. apply (hlw_set_mass _ _ _ P); assumption.
    - apply equiet_ono, oquiet_part, keeps_set_momentum.
    - apply equiet_modo. intros o. constructor; cbn; auto using same_static_refl, hlm_refl, hlm_hlw.
      + intros y Hy. unfold upd. destruct (Pos.eqb_spec r y); [congruence|reflexivity].
      + intros y. unfold upd. destruct (Pos.eqb_spec r y); [subst; reflexivity|reflexivity].
    - apply equiet_ono, oquiet_sprod, squiet_update.
  Qed.
  Lemma oquiet_invoke f args : frame_ok (m_body f) = true -> oquiet (invoke junk call f args).
  Proof.
    intros H o. unfold invoke. destruct (bind_args _ _ _) as [l|e|u]; try apply like_refl.
    pose proof (equiet_exec _ H (o, l)) as K. destruct (exec junk call (m_body f) (o, l)) as [r [o' l']].
    exact K.
  Qed.
End Frame.

Section FrameClass.
  Context {num : Num}.
  Variable junk : id -> nat -> T num.
  Variable c : cls.
  Variable dyn : mask.

  (** methods that call nothing and change nothing of this, and methods that call those *)
  Definition inner_ok (m : id) : bool :=
    match find_meth c m with Some f => frame_ok dyn (fun _ => false) (m_body f) | None => true end.
  Definition method_ok (m : id) : bool :=
    match find_meth c m with Some f => frame_ok dyn inner_ok (m_body f) | None => true end.

  Lemma inner_quiet m args : inner_ok m = true -> oquiet dyn (run (num:=num) junk c 1 m args).
  Proof.
    unfold inner_ok, run. destruct (find_meth c m) as [f|]; [|intros _ o; apply like_refl].
    apply oquiet_invoke. discriminate.
  Qed.
  Lemma method_quiet m args : method_ok m = true -> oquiet dyn (callm (num:=num) junk c m args).
  Proof.
    unfold method_ok, callm. change (run junk c 2 m args) with
      (match find_meth c m with Some f => invoke junk (run junk c 1) f args | None => slift (UB TypeMismatch) end).
    destruct (find_meth c m) as [f|]; [|intros _ o; apply like_refl].
    apply oquiet_invoke. exact inner_quiet.
  Qed.

  Definition call_ok (k : ocall num) : bool := match k with OCall m _ => method_ok m end.
  Lemma history_quiet h : forall o, forallb call_ok h = true -> like dyn o (snd (orun junk c h o)).
  Proof.
    induction h as [|[m args] h IH]; intros o H; cbn [forallb call_ok orun ostep] in *; [apply like_refl|].
    apply andb_prop in H as [Hm Hh]. pose proof (method_quiet m args Hm o) as K.
    destruct (callm junk c m args o) as [r o']. cbn [snd] in K.
    specialize (IH o' Hh). destruct (orun junk c h o') as [rs o'']. cbn [snd] in *.
    eapply like_trans; eauto.
  Qed.
End FrameClass.
