(** * C51: copies of process objects *)
From Coq Require Import ZArith QArith String Lia.
From Flocq Require Import Core BinarySingleNaN.
From Verif Require Import Base Scalar IEEE Linear Integers Particle Sproduct Propagator Process
  ParticleProofs Ready ParticleClaims SpecSproduct WorldProofs Lang LangFrame Pure PureProofs ReadOnly Sym SMNames
  SMRun SMTwins SMMasses SMAll SMChecks SMState SMFloat PropsClasses SMAmp2 Copies SM06.
Close Scope Q_scope.
Close Scope R_scope.
Open Scope st_scope.
Open Scope nat_scope.

(** ** What the methods of the copy leave alone: the first four particles, except for caches *)
Section Low.
  Context {num : Num}.
  Notation particle := (particle num).
  Definition low (h h' : heap num) : Prop :=
    length h' = length h /\
    forall a P, a < 4 -> nth_error h a = Some P -> exists P', nth_error h' a = Some P' /\
      pa_m P' = pa_m P /\ (coh P -> coh P' /\ uncached P' = uncached P).
  Lemma low_refl h : low h h.
  Proof. split; [reflexivity|]. intros a P _ E. exists P. auto. Qed.
  Lemma low_trans h1 h2 h3 : low h1 h2 -> low h2 h3 -> low h1 h3.
  Proof.
    intros [L1 H1] [L2 H2]. split; [congruence|]. intros a P Ha E.
    destruct (H1 a P Ha E) as (P2 & E2 & M2 & C2). destruct (H2 a P2 Ha E2) as (P3 & E3 & M3 & C3).
    exists P3. split; [exact E3|]. split; [congruence|]. intros HC. destruct (C2 HC) as [A B]. destruct (C3 A) as [A' B']. split; congruence.
  Qed.
  Lemma low_quiet h h' : hle h h' -> hlm h h' -> low h h'.
  Proof.
    intros L [M1 M2]. split; [exact M1|]. intros a P _ E. destruct (L a P E) as (P' & E1 & C1).
    destruct (M2 a P E) as (P'' & E2 & C2). rewrite E1 in E2. injection E2 as <-. exists P'. auto.
  Qed.
  (** the whole object: the spinor products keep their pointers *)
  Definition unseen (o o' : obj num) : Prop := low (o_heap o) (o_heap o') /\ forall s, same_static (o_S o s) (o_S o' s).
  Lemma unseen_refl o : unseen o o.
  Proof. split; [apply low_refl|intros; apply same_static_refl]. Qed.
  Lemma unseen_trans o1 o2 o3 : unseen o1 o2 -> unseen o2 o3 -> unseen o1 o3.
  Proof. intros [A B] [A' B']. split; [eapply low_trans; eauto|]. intros s. eapply same_static_trans; eauto. Qed.
  Definition oblind {A} (x : ST (obj num) A) : Prop := forall o, unseen o (snd (x o)).
  Definition eblind {A} (x : ST (st num) A) : Prop := forall s, unseen (fst s) (fst (snd (x s))).

  Lemma oblind_reads {A} p (x : ST particle A) : transparent x -> keeps_m x -> oblind (on_part p x).
  Proof.
    intros Hx Hm o. unfold on_part. destruct (nth_error (o_heap o) p) as [P|] eqn:E; [|apply unseen_refl].
    specialize (Hm P). pose proof (Hx P) as HxP. destruct (x P) as [r P'] eqn:EX. cbn in *.
    split; [|intros; apply same_static_refl]. cbn [o_heap u_heap]. apply low_quiet; [|eapply hlm_hset; eauto].
    intros a Pa Ea. destruct (Nat.eq_dec p a) as [<-|N].
    - rewrite E in Ea. injection Ea as <-. exists P'. split; [eapply hset_same; eauto|].
      intros HC. destruct (HxP HC) as (_ & H2 & H3). auto.
    - exists Pa. rewrite hset_other by exact N. auto.
  Qed.
  Lemma oblind_high {A} p (x : ST particle A) : 4 <= p -> oblind (on_part p x).
  Proof.
    intros Hp o. unfold on_part. destruct (nth_error (o_heap o) p) as [P|] eqn:E; [|apply unseen_refl].
    destruct (x P) as [r P']. cbn [fst snd]. split; [|intros; apply same_static_refl]. cbn [o_heap u_heap]. split; [apply hset_length|].
    intros a Pa Ha Ea. exists Pa. rewrite hset_other by lia. auto.
  Qed.
  Lemma oblind_sprod {A} s (f : ST (store num) A) : squiet f -> quiet f -> oblind (on_sprod s f).
  Proof.
    intros HS HQ o. unfold on_sprod. specialize (HS (o_heap o) (o_S o s)). specialize (HQ (o_heap o) (o_S o s)).
    destruct (f (o_heap o, o_S o s)) as [r [h sp]]. cbn [fst snd] in *. destruct HS as [H1 H2].
    split; cbn; [apply low_quiet; assumption|]. intros x. unfold upd. destruct (Pos.eqb_spec s x); [subst; exact H2|apply same_static_refl].
  Qed.
  Lemma oblind_v s zs : oblind (v_sem s zs).
  Proof.
    destruct zs as [|z [|z' [|]]]; cbn; try (intros o; apply unseen_refl);
      apply oblind_sprod; auto using squiet_v0, squiet_v1, squiet_v2, quiet_v0, quiet_v1, quiet_v2.
  Qed.

  Variable junk : id -> nat -> T num.
  Variable call : id -> list (arg num) -> ST (obj num) (option (ret num)).
  Hypothesis Hcall : forall m args, oblind (call m args).
  Lemma eblind_bind {A B} (x : ST (st num) A) (f : A -> ST (st num) B) :
    eblind x -> (forall a, eblind (f a)) -> eblind (sbind x f).
  Proof.
    intros Hx Hf s. specialize (Hx s). unfold sbind. destruct (x s) as [[a|e|u] s']; cbn in *; auto.
    eapply unseen_trans; [exact Hx|apply Hf].
  Qed.
  Lemma eblind_ret {A} (a : A) : eblind (sret a). Proof. intros s; apply unseen_refl. Qed.
  Lemma eblind_lift {A} (a : outcome A) : eblind (slift a). Proof. intros s; apply unseen_refl. Qed.
  Lemma eblind_throw {A} e : eblind (sthrow (A:=A) e). Proof. intros s; apply unseen_refl. Qed.
  Lemma eblind_geto {A} (f : obj num -> A) : eblind (geto f). Proof. intros s; apply unseen_refl. Qed.
  Lemma eblind_getl {A} (f : env num -> A) : eblind (getl f). Proof. intros s; apply unseen_refl. Qed.
  Lemma eblind_modl f : eblind (modl f). Proof. intros s; apply unseen_refl. Qed.
  Lemma eblind_modo f : (forall o, unseen o (f o)) -> eblind (modo f). Proof. intros H s; apply H. Qed.
  Lemma eblind_ono {A} (f : ST (obj num) A) : oblind f -> eblind (ono f).
  Proof. intros H s. specialize (H (fst s)). unfold ono. destruct (f (fst s)); exact H. Qed.
  Lemma eblind_eval {t} (e : exp t) : eblind (eval call e).
  Proof.
    induction e; cbn [eval];
      repeat first [ apply eblind_bind; [|intro] | apply eblind_ret | apply eblind_lift | apply eblind_geto
                   | apply eblind_getl | assumption ].
    - destruct a; [assumption|apply eblind_ret].
    - destruct a; [apply eblind_ret|assumption].
    - apply eblind_ono, oblind_v.
    - apply eblind_ono, Hcall.
    - destruct a1 as [[x|x]|]; first [apply eblind_ret|apply eblind_lift].
    - apply eblind_ono, oblind_reads; [apply transparent_spinor0|apply keeps_spinor0].
    - apply eblind_ono, oblind_reads; [apply transparent_spinor2|apply keeps_spinor2].
    - apply eblind_ono, oblind_reads; [|apply keeps_mat].
      destruct upper; [exact (transparent_mat UpMat)|exact (transparent_mat LoMat)].
  Qed.
  Lemma eblind_void (x : ST (st num) unit) : eblind x -> eblind (void x).
  Proof. intros H. apply eblind_bind; [exact H|intro; apply eblind_ret]. Qed.
  Lemma eblind_loop x cond next (body : ST (st num) (option (ret num))) fuel :
    eblind body -> eblind (loop call fuel x cond next body).
  Proof.
    intros HB. induction fuel as [|fuel IH]; cbn [loop]; [apply eblind_lift|].
    apply eblind_bind; [apply eblind_eval|intros [|]]; [|apply eblind_ret].
    apply eblind_bind; [exact HB|intros [r|]]; [apply eblind_ret|].
    apply eblind_bind; [apply eblind_eval|intros z]. apply eblind_bind; [apply eblind_modl|intros _; exact IH].
  Qed.
  (** no spinor product is made outside of constructors *)
  Fixpoint no_make (s : stmt) : bool :=
    match s with
    | SSeq s1 s2 => no_make s1 && no_make s2
    | SIf _ s1 s2 => no_make s1 && no_make s2
    | SFor _ _ _ _ s => no_make s
    | SSprod _ _ _ _ _ => false
    | _ => true
    end.
  Lemma eblind_exec s : no_make s = true -> eblind (exec junk call (shift_s 4 s)).
  Proof.
    induction s; cbn [exec shift_s no_make]; intros H; try discriminate H;
      repeat match goal with H : _ && _ = true |- _ => apply andb_prop in H as [? ?] end;
      repeat match goal with IH : _ = true -> _, H : _ = true |- _ => specialize (IH H) end;
      try specialize (IHs eq_refl);
      repeat first [ match goal with |- eblind (loop _ _ _ _ _ _) => apply eblind_loop; assumption end
                   | apply eblind_bind; [|intro] | apply eblind_ret | apply eblind_lift | apply eblind_throw
                   | apply eblind_geto | apply eblind_getl | apply eblind_void | apply eblind_modl
                   | apply eblind_eval | assumption
                   | apply eblind_ono, oblind_high; lia
                   | apply eblind_ono, oblind_sprod; [apply squiet_update|apply quiet_update]
                   | apply eblind_modo; intros; split; [apply low_refl|intros; apply same_static_refl] ].
    - destruct a; [apply eblind_ret|assumption].
    - destruct a; assumption.
  Qed.
  Lemma oblind_invoke f args : no_make (m_body f) = true ->
    oblind (invoke junk call (mkMeth (m_name f) (m_params f) (shift_s 4 (m_body f))) args).
  Proof.
    intros H o. unfold invoke. cbn [m_params m_body]. destruct (bind_args _ _ _) as [l|e|u]; try apply unseen_refl.
    pose proof (eblind_exec _ H (o, l)) as K. destruct (exec junk call (shift_s 4 (m_body f)) (o, l)) as [r [o' l']]. exact K.
  Qed.
End Low.
Definition makes_nothing (c : cls) : bool := forallb (fun f => no_make (m_body f)) (c_methods c).
Lemma sm_make : forallb makes_nothing sm_classes = true.
Proof. vm_cast_no_check (eq_refl true). Qed.

Lemma find_shift k c m : find_meth (shift k c) m =
  option_map (fun f => mkMeth (m_name f) (m_params f) (shift_s k (m_body f))) (find_meth c m).
Proof. unfold find_meth, shift. cbn [c_methods]. induction (c_methods c) as [|f l IH]; [reflexivity|]. cbn. destruct (Pos.eqb _ _); [reflexivity|exact IH]. Qed.
Lemma blind_run {num : Num} (junk : id -> nat -> T num) c : makes_nothing c = true ->
  forall d m args, oblind (run (num:=num) junk (shift 4 c) d m args).
Proof.
  intros H. induction d as [|d IH]; intros m args; [intros o; apply unseen_refl|].
  change (run junk (shift 4 c) (S d) m args) with
    (match find_meth (shift 4 c) m with Some f => invoke junk (run junk (shift 4 c) d) f args | None => slift (UB TypeMismatch) end).
  rewrite find_shift. destruct (find_meth c m) as [f|] eqn:EF; cbn [option_map]; [|intros o; apply unseen_refl].
  apply oblind_invoke; [exact IH|]. apply find_some in EF as [EF _]. exact (proj1 (forallb_forall _ _) H f EF).
Qed.
Lemma blind_history {num : Num} (junk : id -> nat -> T num) c h : makes_nothing c = true ->
  forall o, unseen o (snd (orun (num:=num) junk (shift 4 c) h o)).
Proof.
  intros H. induction h as [|[m args] h IH]; intros o; cbn [orun ostep]; [apply unseen_refl|].
  pose proof (blind_run junk c H 2 m args o) as K. unfold callm. destruct (run junk (shift 4 c) 2 m args o) as [r o1].
  cbn [snd] in K. specialize (IH o1). destruct (orun junk (shift 4 c) h o1) as [rs o2]. cbn [snd] in *. eapply unseen_trans; eauto.
Qed.

(** ** The spinor products of an object point to its own particles *)
Definition points_low (t : sstat) : bool := (ss_L t <? 4) && (ss_R t <? 4) && forallb (fun a => a <? 4) (ss_mid t).
Definition sprods (c : cls) : list id := flat_map (fun x => match snd x with KSprod => [fst x] | _ => [] end) (c_members c).
Definition all_low (c : cls) : bool :=
  match shape c with
  | POk b => forallb (fun s => match b_S b s with Some (t, _) => points_low t | None => false end) (sprods c)
  | _ => false
  end.
Lemma sm_low : forallb all_low sm_classes = true.
Proof. vm_cast_no_check (eq_refl true). Qed.

(** C51, what is wrong.  A copy of any object; then any calls on the copy, whatever they
    return.  The spinor products of the copy still point to the particles of the original
    (addresses 0 to 3), and those have the same masses, and if their caches were coherent
    the same momenta, as at the time of the copy.  So no momentum given to the copy ever
    reaches its spinor products. *)
Theorem C51_copy_reads_original :
  forall c, In c sm_classes ->
  forall (num : Num), polar_total (num:=num) ->
  forall (junk : id -> nat -> T num) (o : obj num), reached junk c o ->
  forall h : list (ocall num),
    let o' := snd (orun junk (shift 4 c) h (copied o)) in
    (forall s, In s (sprods c) ->
       exists aL aR mid, sp_L (o_S o' s) = Some aL /\ sp_R (o_S o' s) = Some aR /\ sp_mid (o_S o' s) = mid /\
         Forall (fun a => a < 4) (aL :: aR :: mid)) /\
    forall a P, nth_error (o_heap o) a = Some P ->
      exists P', nth_error (o_heap o') a = Some P' /\ pa_m P' = pa_m P /\ (coh P -> uncached P' = uncached P).
Proof.
  intros c Hc num HP junk o HR h o'. destruct (shape_c c Hc) as (b & EB & HM & _).
  destruct (reached_twin junk c b o Hc EB HM HR) as (HS & _).
  pose proof (blind_history junk c h (proj1 (forallb_forall _ _) sm_make c Hc) (copied o)) as [HB1 HB2]. fold o' in HB1, HB2. split.
  - intros s Hs. pose proof (proj1 (forallb_forall _ _) sm_low c Hc) as K. unfold all_low in K. rewrite EB in K.
    pose proof (proj1 (forallb_forall _ _) K s Hs) as K2. cbv beta in K2. destruct (b_S b s) as [[t u]|] eqn:ES; [|discriminate K2].
    destruct (sh_S _ _ HS s t u ES) as (S1 & S2 & S3 & _). destruct (HB2 s) as (B1 & B2 & B3 & _).
    change (o_S (copied o) s) with (o_S o s) in B1, B2, B3.
    exists (ss_L t), (ss_R t), (ss_mid t). unfold points_low in K2. apply andb_prop in K2 as [K2 K3]. apply andb_prop in K2 as [K1 K2].
    apply Nat.ltb_lt in K1, K2. repeat split; try congruence. constructor; [exact K1|]. constructor; [exact K2|].
    apply Forall_forall. intros a Ha. apply Nat.ltb_lt. exact (proj1 (forallb_forall _ _) K3 a Ha).
  - intros a P E. destruct HB1 as [_ HB1]. pose proof (sh_h _ _ HS) as HL.
    assert (Ha : a < 4) by (rewrite <- HL; apply nth_error_Some; congruence).
    destruct (HB1 a P Ha) as (P' & E1 & E2 & E3).
    { unfold copied. cbn [o_heap u_heap]. rewrite nth_error_app1 by lia. exact E. }
    exists P'. split; [exact E1|]. split; [exact E2|]. intros HC. apply E3, HC.
Qed.
Print Assumptions C51_copy_reads_original.

(** C51, what holds.  Calls on a copy do not change what the original answers. *)
Theorem C51_original_unharmed_partial :
  forall c, In c sm_classes ->
  forall (num : Num), polar_total (num:=num) ->
  forall (junk : id -> nat -> T num) (o : obj num), reached junk c o ->
  forall q1 q2 q3 q4 : mom num,
    let g := callm junk c n_set_momenta [GMom q1; GMom q2; GMom q3; GMom q4] o in
    isOk (fst g) = true ->
  forall rs, forallb reading rs = true ->
    let o1 := snd (orun junk c rs (snd g)) in
  forall (h : list (ocall num)) m, argless c m ->
    fst (callm junk c m [] (original o1 (snd (orun junk (shift 4 c) h (copied o1))))) = fst (callm junk c m [] o1).
Proof.
  intros c Hc num HP junk o HR q1 q2 q3 q4 g HOk rs Hrs o1 h m Hm.
  destruct (reached_state junk c o [q1; q2; q3; q4] rs Hc HP HR eq_refl HOk Hrs) as (b & pat & b1 & rT & EB & HI & EA & _ & _ & _ & _ & HQ).
  destruct (HQ (fun _ _ => c0)) as (HQ1 & (D & HO)). change (ORD true (RTs rT (fun _ _ => c0)) (RCs rT (fun _ _ => c0)) (Qj pat) D o1 b1) in HO.
  pose proof (blind_history junk c h (proj1 (forallb_forall _ _) sm_make c Hc) (copied o1)) as [[HL HB] _].
  set (o' := snd (orun junk (shift 4 c) h (copied o1))) in *.
  destruct (shape_c c Hc) as (b0 & EB0 & HMs & HA). rewrite EB in EB0. injection EB0 as <-.
  destruct (reached_twin junk c b o Hc EB HMs HR) as (HS & _).
  assert (HP4 : length (b_P b1) = 4%nat).
  { rewrite <- (or_len _ _ _ _ _ _ _ HO). pose proof (sh_h _ _ HS) as E.
    pose proof (method_quiet junk c (dyn_mask c) n_set_momenta [GMom q1; GMom q2; GMom q3; GMom q4] (dyn_ok c Hc n_set_momenta eq_refl) o) as L1.
    fold g in L1.
    assert (L2 : like (dyn_mask c) (snd g) o1).
    { apply like_history; [exact Hc|]. rewrite forallb_forall in *. intros [m' a'] Hk. specialize (Hrs _ Hk). cbn in Hrs |- *.
      unfold reader in Hrs. apply negb_true_iff in Hrs. apply orb_false_iff in Hrs as [Hrs _]. apply orb_false_iff in Hrs as [Hrs _].
      rewrite Hrs. reflexivity. }
    destruct (like_h _ _ _ L1) as [E1 _]. destruct (like_h _ _ _ L2) as [E2 _]. congruence. }
  assert (HLen : length (o_heap o1) = 4%nat) by (rewrite (or_len _ _ _ _ _ _ _ HO); exact HP4).
  assert (HF : forall a P, nth_error (o_heap o1) a = Some P -> exists P', nth_error (firstn 4 (o_heap o')) a = Some P' /\
    pa_m P' = pa_m P /\ (coh P -> coh P' /\ uncached P' = uncached P)).
  { intros a P E. assert (Ha : a < 4) by (rewrite <- HLen; apply nth_error_Some; congruence).
    destruct (HB a P Ha) as (P' & E1 & E2 & E3); [unfold copied; cbn [o_heap u_heap]; rewrite nth_error_app1 by lia; exact E|].
    exists P'. split; [|auto]. rewrite <- E1. rewrite <- (firstn_skipn 4 (o_heap o')) at 2. symmetry. apply nth_error_app1.
    rewrite firstn_length, HL. unfold copied. cbn [o_heap u_heap]. rewrite app_length, HLen. cbn. lia. }
  assert (HO' : OR true (RTs rT (fun _ _ => c0)) (RCs rT (fun _ _ => c0)) (Qj pat) (original o1 o') b1).
  { exists D. apply ORD_heap; [exact HO| |].
    - intros a P E. destruct (HF a P E) as (P' & E1 & _ & E3). eauto.
    - split.
      + rewrite firstn_length, HL. unfold copied. cbn [o_heap u_heap]. rewrite app_length, HLen. reflexivity.
      + intros a P E. destruct (HF a P E) as (P' & E1 & E2 & _). eauto. }
  pose proof (method_ref true _ _ _ (sym_hom rT (fun _ _ => c0)) (Qj pat) HQ1 junk c m [] [] o1 b1 (Forall2_nil _) (ex_intro _ D HO)) as K1.
  pose proof (method_ref true _ _ _ (sym_hom rT (fun _ _ => c0)) (Qj pat) HQ1 junk c m [] [] (original o1 o') b1 (Forall2_nil _) HO') as K2.
  fold (answer c pat m b1) in K1, K2.
  pose proof (proj1 (forallb_forall _ _) HA pat HI) as K. unfold answers in K. rewrite EA in K.
  pose proof (proj1 (forallb_forall _ _) K m (argless_in c m Hm)) as K3. cbv beta in K3.
  destruct (answer c pat m b1) as [|e|[y b3]]; [discriminate K3| |]; unfold REF in K1, K2.
  - destruct (fst (callm junk c m [] o1)) as [?|e1|?]; [contradiction| |discriminate].
    destruct (fst (callm junk c m [] (original o1 o'))) as [?|e2|?]; [contradiction| |discriminate].
    destruct K1 as [->|]; [|discriminate]. destruct K2 as [->|]; [|discriminate]. reflexivity.
  - destruct (callm junk c m [] o1) as [[r1|?|?] o1']; try discriminate K1.
    destruct (callm junk c m [] (original o1 o')) as [[r2|?|?] o2']; try discriminate K2.
    cbn [fst]. f_equal. destruct K1 as [K1 _], K2 as [K2 _]. exact (ret_det _ _ _ _ K2 K1).
Qed.
Print Assumptions C51_original_unharmed_partial.

(** C51 refuted: eemm with masses 12 and 5; momenta along z, a copy, and the copy gets momenta
    along x.  In x87 extended arithmetic amp2 of the copy differs by more than a thousandth
    from that of a new object with those momenta. *)
Definition ex51 : obj XN := snd (fbuild eemm ex_params).
Definition ex51_momenta : list (mom XN) := [zmom 13 5; zmom 13 (-5); xmom 13 12; xmom 13 (-12)]%Z.
Theorem C51_refuted : exists c, In c sm_classes /\ exists o, reached (num:=XN) junk0 c o /\
  exists q1 q2,
    let o1 := snd (fmomenta c q1 o) in
    let copy := snd (fmomenta (shift 4 c) q2 (copied o1)) in
    let new := snd (fmomenta c q2 o) in
    isOk (fst (fmomenta c q1 o)) = true /\ isOk (fst (fmomenta (shift 4 c) q2 (copied o1))) = true /\
    isOk (fst (fmomenta c q2 o)) = true /\
    exists x y, fvalue c n_amp2 new = Some x /\ fvalue (shift 4 c) n_amp2 copy = Some y /\ far x y = true.
Proof.
  exists eemm. split; [unfold sm_classes; rewrite !in_app_iff; cbn; tauto|].
  exists ex51. split; [apply fbuild_reached; vm_cast_no_check (eq_refl (@Ok unit tt))|].
  exists ex_momenta, ex51_momenta. cbv zeta.
  split; [vm_cast_no_check (eq_refl true)|]. split; [vm_cast_no_check (eq_refl true)|]. split; [vm_cast_no_check (eq_refl true)|].
  assert (H : match fvalue eemm n_amp2 (snd (fmomenta eemm ex51_momenta ex51)),
                    fvalue (shift 4 eemm) n_amp2 (snd (fmomenta (shift 4 eemm) ex51_momenta (copied (snd (fmomenta eemm ex_momenta ex51))))) with
              | Some x, Some y => far x y | _, _ => false end = true) by (vm_cast_no_check (eq_refl true)).
  destruct (fvalue eemm n_amp2 _) as [x|]; [|discriminate H].
  destruct (fvalue (shift 4 eemm) n_amp2 _) as [y|]; [|discriminate H].
  exists x, y. auto.
Qed.
Print Assumptions C51_refuted.

(** ** Examples *)
(** hypotheses of both theorems: the object of the refutation, its momenta, a history on the copy *)
Example C51_example :
  In eemm sm_classes /\ polar_total (num:=XN) /\ reached (num:=XN) junk0 eemm ex51 /\ argless eemm n_amp2 /\
  length (sprods eemm) = 12 /\
  isOk (fst (fmomenta eemm ex_momenta ex51)) = true /\
  map isOk (fst (orun junk0 (shift 4 eemm) [OCall n_set_momenta (map GMom ex51_momenta); OCall n_set_masses []; OCall n_amp [GI 1; GI 1; GI 1; GI 1]]%Z
    (copied (snd (fmomenta eemm ex_momenta ex51))))) = [true; false; true].
Proof.
  refine (conj _ (conj _ (conj _ (conj _ (conj _ (conj _ _)))))).
  - unfold sm_classes. rewrite !in_app_iff. cbn. tauto.
  - apply polar_lenient. reflexivity.
  - apply fbuild_reached. vm_cast_no_check (eq_refl (@Ok unit tt)).
  - exists (match find_meth eemm n_amp2 with Some f => f | None => mkMeth xH [] SSkip end). split; reflexivity.
  - reflexivity.
  - vm_cast_no_check (eq_refl true).
  - vm_cast_no_check (eq_refl [true; false; true]).
Qed.
