(** * Methods that only read the object

    Whatever such a method does (return, throw), what was known about the object remains
    known: it only fills caches. *)
From Coq Require Import Lia.
From Verif Require Import Base Scalar Linear Integers Particle Sproduct Propagator Process
  ParticleProofs Ready ParticleClaims SpecSproduct WorldProofs Lang LangFrame Pure PureProofs.
Open Scope st_scope.

Section Keep.
  Context {n1 n2 : Num} (tot : bool).
  Variable RT : T n1 -> T n2 -> Prop.
  Variable RC : CX n1 -> CX n2 -> Prop.
  Variable Q : oracle n2.
  Variable b : pobj n2.
  Notation OR := (OR tot RT RC Q).
  Notation ORD := (ORD tot RT RC Q).

  Definition okeep {A} (x : ST (obj n1) A) : Prop := forall o, OR o b -> OR (snd (x o)) b.
  Definition ekeep {A} (x : ST (st n1) A) : Prop := forall s, OR (fst s) b -> OR (fst (snd (x s))) b.

  Lemma okeep_part {A} p (x : ST (particle n1) A) : transparent x -> keeps_m x -> okeep (on_part p x).
  Proof.
    intros Hx Hm o (D & HO). unfold on_part. destruct (nth_error (o_heap o) p) as [P|] eqn:E; [|exists D; exact HO].
    specialize (Hm P). pose proof (Hx P) as HxP. destruct (x P) as [r P'] eqn:EX. cbn in *.
    exists D. apply (ORD_heap tot RT RC); [exact HO| |eapply hlm_hset; eauto].
    intros a Pa Ea. destruct (Nat.eq_dec p a) as [<-|N].
    - rewrite E in Ea. injection Ea as <-. exists P'. split; [eapply hset_same; eauto|].
      intros HC. destruct (HxP HC) as (_ & H2 & H3). auto.
    - exists Pa. rewrite hset_other by exact N. auto.
  Qed.
  Lemma okeep_sprod {A} s (f : ST (store n1) A) : squiet f -> quiet f ->
    (forall D h sp aL aR, sp_inv D sp aL aR -> all_known D h (sp_addrs sp) -> sp_inv D (snd (snd (f (h, sp)))) aL aR) ->
    okeep (on_sprod s f).
  Proof.
    intros HS HQ HI o (D & HO). unfold on_sprod. specialize (HS (o_heap o) (o_S o s)). specialize (HQ (o_heap o) (o_S o s)).
    specialize (HI D (o_heap o) (o_S o s)). destruct (f (o_heap o, o_S o s)) as [r [h sp]]. cbn [fst snd] in *.
    destruct HS as [H1 H2]. exists D. apply (ORD_sprod tot RT RC Q D (u_heap h o)).
    - apply (ORD_heap tot RT RC); auto.
    - exact H2.
    - intros t E. destruct (or_S _ _ _ _ _ _ _ HO s t true E) as ((S1 & S2 & S3 & _) & K). destruct (K eq_refl) as (K1 & K2 & K3 & K4).
      apply HI; [exact K4|]. unfold sp_addrs. rewrite S1, S2, S3.
      destruct (p_data b (ss_L t)) as [| |dL] eqn:EL; try discriminate K1.
      destruct (p_data b (ss_R t)) as [| |dR] eqn:ER; try discriminate K2.
      destruct (p_datas b (ss_mid t)) as [| |dm] eqn:EM; try discriminate K3.
      destruct (data_ref _ _ _ _ _ _ _ _ _ HO EL) as (_ & _ & _ & _ & L4).
      destruct (data_ref _ _ _ _ _ _ _ _ _ HO ER) as (_ & _ & _ & _ & R4).
      destruct (datas_ref _ _ _ _ _ _ _ _ HO _ EM) as (_ & _ & _ & _ & M4).
      intros a Ha. cbn in Ha. destruct Ha as [<-|[<-|Ha]]; auto.
  Qed.
  Lemma okeep_v s zs : okeep (v_sem s zs).
  Proof.
    destruct zs as [|z [|z' [|]]]; cbn; try (intros o HO; exact HO).
    - apply okeep_sprod; auto using squiet_v0, quiet_v0. intros D h sp aL aR INV HK.
      destruct (v0_eval D h sp aL aR INV HK) as (h' & sp' & _ & _ & A & E). rewrite E. exact A.
    - apply okeep_sprod; auto using squiet_v1, quiet_v1. intros D h sp aL aR INV HK.
      destruct (v1_eval D z h sp aL aR INV HK) as (h' & sp' & _ & _ & A & E). rewrite E. exact A.
    - apply okeep_sprod; auto using squiet_v2, quiet_v2. intros D h sp aL aR INV HK.
      destruct (v2_eval D z z' h sp aL aR INV HK) as (h' & sp' & _ & _ & A & E). rewrite E. exact A.
  Qed.

  Variable junk : id -> nat -> T n1.
  Variable call : id -> list (arg n1) -> ST (obj n1) (option (ret n1)).
  Variable okm : id -> bool.
  Hypothesis Hcall : forall m args, okm m = true -> okeep (call m args).

  Lemma ekeep_bind {A B} (x : ST (st n1) A) (f : A -> ST (st n1) B) :
    ekeep x -> (forall a, ekeep (f a)) -> ekeep (sbind x f).
  Proof.
    intros Hx Hf s HO. specialize (Hx s HO). unfold sbind. destruct (x s) as [[a|e|u] s']; cbn in *; auto. apply Hf, Hx.
  Qed.
  Lemma ekeep_ret {A} (a : A) : ekeep (sret a). Proof. intros s HO; exact HO. Qed.
  Lemma ekeep_lift {A} (a : outcome A) : ekeep (slift a). Proof. intros s HO; exact HO. Qed.
  Lemma ekeep_throw {A} e : ekeep (sthrow (A:=A) e). Proof. intros s HO; exact HO. Qed.
  Lemma ekeep_geto {A} (f : obj n1 -> A) : ekeep (geto f). Proof. intros s HO; exact HO. Qed.
  Lemma ekeep_getl {A} (f : env n1 -> A) : ekeep (getl f). Proof. intros s HO; exact HO. Qed.
  Lemma ekeep_modl f : ekeep (modl f). Proof. intros s HO; exact HO. Qed.
  Lemma ekeep_ono {A} (f : ST (obj n1) A) : okeep f -> ekeep (ono f).
  Proof. intros H s HO. specialize (H (fst s) HO). unfold ono. destruct (f (fst s)); exact H. Qed.

  Lemma ekeep_eval {t} (e : exp t) : frame_e okm e = true -> ekeep (eval call e).
  Proof.
    induction e; cbn [eval frame_e]; intros H;
      try (apply andb_prop in H as [H1 H2]; specialize (IHe1 H1); specialize (IHe2 H2));
      try specialize (IHe H);
      repeat first [ apply ekeep_bind; [|intro] | apply ekeep_ret | apply ekeep_lift | apply ekeep_geto
                   | apply ekeep_getl | assumption ].
    - destruct a; [assumption|apply ekeep_ret].
    - destruct a; [apply ekeep_ret|assumption].
    - apply ekeep_ono, okeep_v.
    - apply ekeep_ono, Hcall, H.
    - destruct a1 as [[x|x]|]; first [apply ekeep_ret|apply ekeep_lift].
    - apply ekeep_ono, okeep_part; [apply transparent_spinor0|apply keeps_spinor0].
    - apply ekeep_ono, okeep_part; [apply transparent_spinor2|apply keeps_spinor2].
    - apply ekeep_ono, okeep_part; [|apply keeps_mat].
      destruct upper; [exact (transparent_mat UpMat)|exact (transparent_mat LoMat)].
  Qed.

  (** statements that change no member *)
  Fixpoint reads (s : stmt) : bool :=
    match s with
    | SSeq s1 s2 => reads s1 && reads s2
    | SIf b s1 s2 => frame_e okm b && (reads s1 && reads s2)
    | SFor _ lo cond next s => frame_e okm lo && frame_e okm cond && frame_e okm next && reads s
    | SLoc _ _ e => frame_e okm e
    | SArrT _ _ e => frame_e okm e
    | SArrC _ _ e => frame_e okm e
    | SReturnT e => frame_e okm e
    | SReturnC e => frame_e okm e
    | SSkip | SDecl _ _ | SDeclT _ _ | SDeclC _ _ | SThrow _ | SSpins _ _ => true
    | _ => false
    end.
  Lemma ekeep_void (x : ST (st n1) unit) : ekeep x -> ekeep (void x).
  Proof. intros H. apply ekeep_bind; [exact H|intro; apply ekeep_ret]. Qed.
  Lemma ekeep_loop x cond next (body : ST (st n1) (option (ret n1))) fuel :
    frame_e okm cond = true -> frame_e okm next = true ->
    ekeep body -> ekeep (loop call fuel x cond next body).
  Proof.
    intros HC HN HB. induction fuel as [|fuel IH]; cbn [loop]; [apply ekeep_lift|].
    apply ekeep_bind; [apply ekeep_eval, HC|intros [|]]; [|apply ekeep_ret].
    apply ekeep_bind; [exact HB|intros [r|]]; [apply ekeep_ret|].
    apply ekeep_bind; [apply ekeep_eval, HN|intros z]. apply ekeep_bind; [apply ekeep_modl|intros _; exact IH].
  Qed.
  Lemma ekeep_exec s : reads s = true -> ekeep (exec junk call s).
  Proof.
    induction s; cbn [exec reads]; intros H; try discriminate H;
      repeat match goal with H : _ && _ = true |- _ => apply andb_prop in H as [? ?] end;
      repeat match goal with IH : _ = true -> _, H : _ = true |- _ => specialize (IH H) end;
      repeat first [ match goal with |- ekeep (loop _ _ _ _ _ _) => apply ekeep_loop; assumption end
                   | apply ekeep_bind; [|intro] | apply ekeep_ret | apply ekeep_lift | apply ekeep_throw
                   | apply ekeep_geto | apply ekeep_getl | apply ekeep_void | apply ekeep_modl
                   | apply ekeep_eval; assumption | assumption ].
    - destruct a; [apply ekeep_ret|assumption].
    - destruct a; assumption.
  Qed.
  Lemma okeep_invoke f args : reads (m_body f) = true -> okeep (invoke junk call f args).
  Proof.
    intros H o HO. unfold invoke. destruct (bind_args _ _ _) as [l|e|u]; try exact HO.
    pose proof (ekeep_exec _ H (o, l) HO) as K. destruct (exec junk call (m_body f) (o, l)) as [r [o' l']]. exact K.
  Qed.
End Keep.

Section KeepClass.
  Context {n1 n2 : Num} (tot : bool).
  Variable RT : T n1 -> T n2 -> Prop.
  Variable RC : CX n1 -> CX n2 -> Prop.
  Variable Q : oracle n2.
  Variable b : pobj n2.
  Variable junk : id -> nat -> T n1.
  Variable c : cls.

  Definition inner_reads (m : id) : bool :=
    match find_meth c m with Some f => reads (fun _ => false) (m_body f) | None => true end.
  Definition method_reads (m : id) : bool :=
    match find_meth c m with Some f => reads inner_reads (m_body f) | None => true end.
  Lemma inner_keeps m args : inner_reads m = true -> okeep tot RT RC Q b (run (num:=n1) junk c 1 m args).
  Proof.
    unfold inner_reads, run. destruct (find_meth c m) as [f|]; [|intros _ o HO; exact HO].
    apply okeep_invoke. discriminate.
  Qed.
  Lemma method_keeps m args : method_reads m = true -> okeep tot RT RC Q b (callm (num:=n1) junk c m args).
  Proof.
    unfold method_reads, callm. change (run junk c 2 m args) with
      (match find_meth c m with Some f => invoke junk (run junk c 1) f args | None => slift (UB TypeMismatch) end).
    destruct (find_meth c m) as [f|]; [|intros _ o HO; exact HO].
    apply okeep_invoke. exact inner_keeps.
  Qed.
End KeepClass.
