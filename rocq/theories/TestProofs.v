(** * The test functions: the symbolic run is right *)
From Coq Require Import Reals QArith ZArith String Ascii Lra Lia.
From Verif Require Import Base Scalar RealNum ParticleReal Linear Integers Utilities Particle Sproduct Propagator Process
  ParticleProofs Ready ParticleClaims SpecSproduct WorldProofs Lang LangFrame Pure PureProofs ReadOnly Sym SMNames
  SMRun SMTwins SMMasses SMAll SMChecks PropsUtil PropsClasses PropsConstruct Harness TestLang TestHarness SMTests TestSym.
Close Scope Q_scope.
Close Scope R_scope.
Open Scope st_scope.

(** ** Bounds *)
Section Bounds.
  Variables (st : bool) (eps : R).
  Notation num := (RN st eps).
  Notation U := (IZR unit12).
  Open Scope R_scope.
  Definition in_ival (x : R) (i : Z * Z) : Prop := (0 <= fst i)%Z /\ IZR (fst i) <= x * U <= IZR (snd i).
  Lemma U_pos : 0 < U.
  Proof. unfold unit12. lra. Qed.
  Lemma nonneg_some i j : nonneg i = Some j -> i = j /\ (0 <= fst i)%Z.
  Proof. unfold nonneg. destruct (Z.leb_spec 0 (fst i)); [|discriminate]. intros [= <-]. auto. Qed.
  (* division of integers, rounded down and up *)
  Lemma div_down (n d : Z) : (0 < d)%Z -> IZR (n / d) * IZR d <= IZR n.
  Proof. intros Hd. rewrite <- mult_IZR. apply IZR_le. rewrite Z.mul_comm. apply Z.mul_div_le, Hd. Qed.
  Lemma div_up (n d : Z) : (0 < d)%Z -> IZR n <= IZR (n / d + 1) * IZR d.
  Proof.
    intros Hd. rewrite <- mult_IZR. apply IZR_le. pose proof (Z.mul_succ_div_gt n d Hd). unfold Z.succ in *. lia.
  Qed.
  Lemma scale_le (a b d : R) : 0 < d -> a * d <= b * d -> a <= b.
  Proof. intros Hd H. apply (Rmult_le_reg_r d); assumption. Qed.
  Lemma sqrt_down (n : Z) x : (0 <= n)%Z -> 0 <= x -> IZR n <= x -> IZR (Z.sqrt n) <= sqrt x.
  Proof.
    intros Hn Hx H. rewrite <- (sqrt_square (IZR (Z.sqrt n))) by (apply IZR_le, Z.sqrt_nonneg).
    apply sqrt_le_1_alt. rewrite <- mult_IZR. eapply Rle_trans; [|exact H]. apply IZR_le. apply Z.sqrt_spec in Hn. lia.
  Qed.
  Lemma sqrt_up (n : Z) x : (0 <= n)%Z -> 0 <= x -> x <= IZR n -> sqrt x <= IZR (Z.sqrt n + 1).
  Proof.
    intros Hn Hx H. rewrite <- (sqrt_square (IZR (Z.sqrt n + 1))) by (apply IZR_le; pose proof (Z.sqrt_nonneg n); lia).
    apply sqrt_le_1_alt. rewrite <- mult_IZR. eapply Rle_trans; [exact H|]. apply IZR_le. apply Z.sqrt_spec in Hn. lia.
  Qed.
  Lemma ival_sound : forall y i, ival y = Some i -> in_ival (den (num:=num) y) i.
  Proof.
    pose proof U_pos as HU.
    induction y; cbn [ival]; intros i E; try discriminate E.
    - apply nonneg_some in E as [<- H]. split; [exact H|]. cbn [fst snd]. rewrite mult_IZR. change (den (num:=num) (TInt z)) with (IZR z). lra.
    - destruct d; try discriminate E. apply nonneg_some in E as [<- H]. split; [exact H|]. cbn [fst snd].
      change (den (num:=num) (TofD (DLit q))) with (Q2R q). destruct q as [n d]. cbn [QArith_base.Qnum QArith_base.Qden] in *.
      unfold Q2R. cbn [QArith_base.Qnum QArith_base.Qden]. assert (Hd : 0 < IZR (Zpos d)) by (apply IZR_lt; lia).
      pose proof (div_down (n * unit12) (Zpos d) ltac:(lia)) as A. pose proof (div_up (n * unit12) (Zpos d) ltac:(lia)) as B.
      rewrite mult_IZR in A, B.
      assert (K : IZR n * / IZR (Z.pos d) * U * IZR (Z.pos d) = IZR n * U) by (field; lra).
      split; apply (scale_le _ _ _ Hd); rewrite K; assumption.
    - destruct (ival y1) as [[l1 h1]|]; [|discriminate E]. destruct (ival y2) as [[l2 h2]|]; [|discriminate E].
      specialize (IHy1 _ eq_refl). specialize (IHy2 _ eq_refl). 
      assert (D : den (num:=num) (TOp a y1 y2) = aopT (num:=num) a (den (num:=num) y1) (den (num:=num) y2)) by reflexivity. rewrite D. clear D.
      revert IHy1 IHy2. generalize (den (num:=num) y1) (den (num:=num) y2). change (T num) with R. intros x y [A1 [A2 A3]] [B1 [B2 B3]].
      cbn [fst snd] in *. apply IZR_le in A1, B1.
      destruct a.
      + injection E as <-. unfold in_ival. cbn [fst snd]. change (aopT (num:=num) Add x y) with (x + y). rewrite !plus_IZR.
        split; [apply le_IZR in A1, B1; lia|lra].
      + apply nonneg_some in E as [<- H]. unfold in_ival. cbn [fst snd] in *. change (aopT (num:=num) Sub x y) with (x - y). rewrite !minus_IZR. split; [exact H|lra].
      + injection E as <-. unfold in_ival. cbn [fst snd]. change (aopT (num:=num) Mul x y) with (x * y).
        pose proof (div_down (l1 * l2) unit12 eq_refl) as A. pose proof (div_up (h1 * h2) unit12 eq_refl) as B. rewrite mult_IZR in A, B.
        assert (K1 : IZR l1 * IZR l2 <= (x * U) * (y * U)) by (apply Rmult_le_compat; assumption).
        assert (K2 : (x * U) * (y * U) <= IZR h1 * IZR h2) by (apply Rmult_le_compat; lra).
        replace (x * U * (y * U)) with (x * y * U * U) in * by ring.
        split; [|split; apply (scale_le _ _ _ HU); lra].
        apply Z.div_pos; [|reflexivity]. apply le_IZR in A1, B1. nia.
      + destruct (Z.ltb_spec 0 l2) as [L|]; [|discriminate E]. injection E as <-. unfold in_ival. cbn [fst snd].
        change (aopT (num:=num) Div x y) with (x / y). apply IZR_lt in L.
        assert (Hy : 0 < y). { apply (Rmult_lt_reg_r U); lra. }
        assert (Hx : 0 <= x). { apply (Rmult_le_reg_r U); lra. }
        assert (Hh : (0 < h2)%Z) by (apply lt_IZR; lra). 
        pose proof (div_down (l1 * unit12) h2 Hh) as A. pose proof (div_up (h1 * unit12) l2 (lt_IZR _ _ L)) as B. rewrite mult_IZR in A, B.
        split; [apply Z.div_pos; [apply le_IZR in A1; unfold unit12; lia|exact Hh]|].
        assert (Hq : 0 <= x / y) by (apply Rmult_le_pos; [exact Hx|left; apply Rinv_0_lt_compat, Hy]).
        assert (K : x / y * U * (y * U) = x * U * U) by (field; lra).
        split.
        * apply (scale_le _ _ (IZR h2)); [apply IZR_lt, Hh|]. eapply Rle_trans; [exact A|]. 
          apply Rle_trans with (x * U * U); [apply Rmult_le_compat_r; lra|]. rewrite <- K. apply Rmult_le_compat_l; [|lra]. apply Rmult_le_pos; lra.
        * apply (scale_le _ _ (IZR l2) L). eapply Rle_trans; [|exact B].
          apply Rle_trans with (x * U * U); [rewrite <- K; apply Rmult_le_compat_l; [apply Rmult_le_pos; lra|lra]|apply Rmult_le_compat_r; lra].
    - destruct (ival y) as [[l h]|]; [|discriminate E]. injection E as <-. specialize (IHy _ eq_refl).
      change (den (num:=num) (TSqr y)) with (sqrt (den (num:=num) y)). revert IHy. generalize (den (num:=num) y). change (T num) with R. intros x [A1 [A2 A3]].
      cbn [fst snd] in *. unfold in_ival. cbn [fst snd]. split; [apply Z.sqrt_nonneg|].
      assert (Hl : 0 <= IZR l) by (apply IZR_le, A1). assert (Hx : 0 <= x). { apply (Rmult_le_reg_r U); lra. }
      assert (K : sqrt x * U = sqrt (x * U * U)).
      { rewrite Rmult_assoc, sqrt_mult by nra. f_equal. symmetry. apply sqrt_square. lra. }
      rewrite K. assert (0 <= x * U * U) by nra. split; [apply sqrt_down|apply sqrt_up]; auto.
      + unfold unit12. lia.
      + rewrite mult_IZR. apply Rmult_le_compat_r; lra.
      + assert (0 <= h)%Z by (apply le_IZR; lra). unfold unit12. lia.
      + rewrite mult_IZR. apply Rmult_le_compat_r; lra.
  Qed.
  Lemma ival_nonneg y i : ival y = Some i -> 0 <= den (num:=num) y.
  Proof. intros E. destruct (ival_sound y i E) as [H [H1 _]]. apply IZR_le in H. pose proof U_pos. apply (Rmult_le_reg_r U); [exact U_pos|]. lra. Qed.
  Lemma above_sound m1 m2 m3 m4 p : above m1 m2 m3 m4 p = true ->
    let d := den (num:=num) in
    (0 <= d m1 /\ 0 <= d m2 /\ 0 <= d m3 /\ 0 <= d m4 /\ 0 <= d p) /\
    0 < sqrt (d p * d p + d m1 * d m1) + sqrt (d p * d p + d m2 * d m2) /\
    d m3 + d m4 <= sqrt (d p * d p + d m1 * d m1) + sqrt (d p * d p + d m2 * d m2).
  Proof.
    unfold above. intros H. cbv zeta.
    destruct (ival m1) eqn:E1; [|discriminate H]. destruct (ival m2) eqn:E2; [|discriminate H].
    destruct (ival m3) as [[l3 h3]|] eqn:E3; [|discriminate H]. destruct (ival m4) as [[l4 h4]|] eqn:E4; [|discriminate H].
    destruct (ival p) eqn:E5; [|discriminate H]. destruct (ival (energy p m1)) as [[a1 b1]|] eqn:E6; [|discriminate H].
    destruct (ival (energy p m2)) as [[a2 b2]|] eqn:E7; [|discriminate H]. apply andb_prop in H as [H1 H2].
    apply Z.ltb_lt, IZR_lt in H1. apply Z.leb_le, IZR_le in H2. rewrite plus_IZR in H1. rewrite !plus_IZR in H2.
    split; [repeat split; eapply ival_nonneg; eassumption|].
    destruct (ival_sound _ _ E3) as [_ [_ K3]]. destruct (ival_sound _ _ E4) as [_ [_ K4]].
    destruct (ival_sound _ _ E6) as [_ [K6 _]]. destruct (ival_sound _ _ E7) as [_ [K7 _]]. cbn [fst snd] in *.
    change (den (num:=num) (energy p m1)) with (sqrt (den (num:=num) p * den (num:=num) p + den (num:=num) m1 * den (num:=num) m1)) in K6.
    change (den (num:=num) (energy p m2)) with (sqrt (den (num:=num) p * den (num:=num) p + den (num:=num) m2 * den (num:=num) m2)) in K7.
    pose proof U_pos as HU. change (T num) with R in *.
    split; [apply (Rmult_lt_reg_r U); [exact HU|]|apply (Rmult_le_reg_r U); [exact HU|]]; rewrite ?Rmult_plus_distr_r; lra.
  Qed.
End Bounds.

(** ** A body without complex return statements *)
Section NoC.
  Context {num : Num}.
  Variable junk : id -> nat -> T num.
  Variable call : id -> list (arg num) -> ST (obj num) (option (ret num)).
  Definition real_ret (x : outcome (option (ret num)) * Lang.st num) : Prop :=
    forall r, fst x = Ok (Some r) -> exists v, r = RtT v.
  Lemma real_bind {A} (f : ST (Lang.st num) A) k s : (forall a s', real_ret (k a s')) -> real_ret ((do a <- f; k a) s).
  Proof. intros H. unfold sbind. destruct (f s) as [[a|e|u] s']; [apply H| |]; intros r E; discriminate E. Qed.
  Lemma real_none (s : Lang.st num) : real_ret (sret None s).
  Proof. intros r E. discriminate E. Qed.
  Lemma real_void (x : ST (Lang.st num) unit) s : real_ret (void x s).
  Proof. apply real_bind. intros. apply real_none. Qed.
  Lemma noC_loop x cond next (body : ST (Lang.st num) (option (ret num))) fuel : (forall s, real_ret (body s)) ->
    forall s, real_ret (loop call fuel x cond next body s).
  Proof.
    intros HB. induction fuel as [|fuel IH]; intros s; cbn [loop]; [intros r E; discriminate E|].
    apply real_bind. intros [] s1; [|apply real_none]. unfold sbind at 1. specialize (HB s1).
    destruct (body s1) as [[[r|]|e|u] s2]; [exact HB| |intros r E; discriminate E..].
    apply real_bind. intros z s3. apply real_bind. intros [] s4. apply IH.
  Qed.
  Lemma noC_exec b : noC b = true -> forall s, real_ret (exec junk call b s).
  Proof.
    induction b; cbn [noC]; intros H st0; cbn [exec]; try (apply real_none); try (apply real_void); try discriminate H;
      try (apply real_bind; intros; repeat (apply real_void || (apply real_bind; intros)); fail).
    - apply andb_prop in H as [H1 H2]. unfold sbind. specialize (IHb1 H1 st0).
      destruct (exec junk call b1 st0) as [[[r|]|e|u] s1]; [exact IHb1|apply IHb2, H2|intros r E; discriminate E..].
    - apply andb_prop in H as [H1 H2]. apply real_bind. intros [] s1; auto.
    - apply real_bind. intros z s1. apply real_bind. intros [] s2. apply noC_loop. auto.
    - apply real_bind. intros v s1 r E. injection E as <-. eauto.
    - intros r E. discriminate E.
  Qed.
End NoC.
Lemma variant_real {num : Num} (junk : id -> nat -> T num) c f : variant c f = true -> argless c f /\ is_setter f = false /\
  forall o r, fst (callm junk c f [] o) = Ok (Some r) -> exists v, r = RtT v.
Proof.
  unfold variant. destruct (find_meth c f) as [fm|] eqn:E; [|discriminate]. destruct (m_params fm) eqn:EP; [|discriminate].
  intros H. apply andb_prop in H as [H1 H2]. split; [exists fm; auto|]. split; [apply negb_true_iff, H2|].
  intros o r. unfold callm. change (run junk c 2 f) with (fun args =>
    match find_meth c f with Some f => invoke junk (run junk c 1) f args | None => slift (UB TypeMismatch) end).
  cbn beta. rewrite E. unfold invoke. rewrite EP. cbn [bind_args].
  pose proof (noC_exec junk (run junk c 1) (m_body fm) H1 (o, env0 junk)) as K.
  destruct (exec junk (run junk c 1) (m_body fm) (o, env0 junk)) as [r' [o' l]]. exact (K r).
Qed.

(** ** What every call keeps, the harness keeps *)
Section Keeps.
  Context {num : Num} {S : Type}.
  Variable Inv : S -> Prop.
  Definition skeeps {A} (x : ST S A) : Prop := forall s, Inv s -> Inv (snd (x s)).
  Definition pkeeps {A} (x : ST (S * stream num) A) : Prop := forall s, Inv (fst s) -> Inv (fst (snd (x s))).
  Lemma pk_bind {A B} (x : ST _ A) (k : A -> ST _ B) : pkeeps x -> (forall a, pkeeps (k a)) -> pkeeps (do a <- x; k a).
  Proof. intros Hx Hk s H. unfold sbind. specialize (Hx s H). destruct (x s) as [[a|e|u] s']; [apply Hk|..]; exact Hx. Qed.
  Lemma pk_ret {A} (a : A) : pkeeps (sret a).
  Proof. intros s H. exact H. Qed.
  Lemma pk_lift {A} (a : outcome A) : pkeeps (slift a).
  Proof. intros s H. destruct a; exact H. Qed.
  Lemma pk_for {A} (body : nat -> A -> ST _ A) n : (forall j a, pkeeps (body j a)) -> forall lo a, pkeeps (sfor lo n body a).
  Proof. intros HB. induction n as [|n IH]; intros lo a; cbn [sfor]; [apply pk_ret|]. apply pk_bind; auto. Qed.
  Lemma pk_proc {A} (x : ST S A) : skeeps x -> pkeeps (on_proc x).
  Proof. intros Hx s H. unfold on_proc. specialize (Hx (fst s) H). destruct (x (fst s)). exact Hx. Qed.
  Lemma pk_rng {A} (x : ST (stream num) A) : pkeeps (on_rng x).
  Proof. intros s H. unfold on_rng. destruct (x (snd s)). exact H. Qed.
  Variable set_momenta : mom num -> mom num -> mom num -> mom num -> ST S unit.
  Variable amp2 : ST S (T num).
  Hypothesis HM : forall q1 q2 q3 q4, skeeps (set_momenta q1 q2 q3 q4).
  Hypothesis HA : skeeps amp2.
  Lemma pk_tally abs rel data j q i : pkeeps (tally set_momenta amp2 abs rel data j q i).
  Proof.
    unfold tally, amp_at. repeat (apply pk_bind; [|intros]); try (apply pk_proc; auto); try apply pk_lift.
    destruct (bad_point _ _ _ _); [apply pk_lift|apply pk_ret].
  Qed.
  Lemma pk_lab m1 m2 m3 m4 P data : pkeeps (test_2to2_amp2 set_momenta amp2 m1 m2 m3 m4 P data).
  Proof. apply pk_for. intros. apply pk_tally. Qed.
  Lemma pk_rot m1 m2 m3 m4 P data : pkeeps (test_2to2_amp2_rotations set_momenta amp2 m1 m2 m3 m4 P data).
  Proof.
    apply pk_for. intros. apply pk_bind; [|intros; apply pk_ret]. apply pk_for. intros.
    apply pk_bind; [apply pk_rng|intros]. apply pk_bind; [apply pk_tally|intros; apply pk_ret].
  Qed.
  Lemma pk_boost fuel m1 m2 m3 m4 P data : pkeeps (test_2to2_amp2_boosts set_momenta amp2 fuel m1 m2 m3 m4 P data).
  Proof. apply pk_for. intros. apply pk_for. intros. apply pk_bind; [apply pk_rng|intros; apply pk_tally]. Qed.
  Lemma pk_both fuel m1 m2 m3 m4 P data : pkeeps (test_2to2_amp2_boosts_and_rotations set_momenta amp2 fuel m1 m2 m3 m4 P data).
  Proof. apply pk_for. intros. apply pk_for. intros. do 3 (apply pk_bind; [apply pk_rng|intros]). apply pk_tally. Qed.
End Keeps.

(** ** The object between the statements of a test *)
Section Object.
  Context {num : Num}.
  Hypothesis HS : strict num = false.
  Variable junk : id -> nat -> T num.
  Variable c : cls.
  Hypothesis Hc : In c sm_classes.
  Variables b b2 : pobj snum.
  Hypothesis EB : shape c = POk b.
  Hypothesis EB2 : forall f, find_meth c n_set_masses = Some f -> setm c b = POk b2.

  Record held (args ms : list sT) (o : obj num) : Prop := mkHeld {
    hd_o : exists oc h, construct junk c (map den args) = (Ok tt, oc) /\ forallb not_set_v h = true /\ o = snd (orun junk c h oc);
    hd_r : reached junk c o;
    hd_n : length ms = 4%nat;
    hd_m : forall p y, nth_error ms p = Some y -> leg_mass o p (den y) }.

  Lemma orun_snoc h m args o : snd (orun junk c (h ++ [OCall m args]) o) = snd (callm junk c m args (snd (orun junk c h o))).
  Proof.
    revert o. induction h as [|k h IH]; intros o; cbn [app orun].
    - change (ostep junk c (OCall m args) o) with (callm junk c m args o). cbn [snd]. destruct (callm junk c m args o). reflexivity.
    - destruct (ostep junk c k o) as [r o']. specialize (IH o').
      destruct (orun junk c (h ++ [OCall m args]) o'), (orun junk c h o'). exact IH.
  Qed.
  Lemma held_call args ms o m a : held args ms o -> is_setter m = false -> held args ms (snd (callm junk c m a o)).
  Proof.
    intros [(oc & h & EC & Hh & EO) HR HN HM] Hm. pose proof Hm as Hm'. unfold is_setter in Hm'. apply orb_false_iff in Hm' as [M1 M2].
    destruct (callm junk c m a o) as [r o'] eqn:E. cbn [snd]. constructor.
    - exists oc, (h ++ [OCall m a])%list. split; [exact EC|]. split.
      + rewrite forallb_app, Hh. cbn [forallb andb not_set_v]. rewrite M2. reflexivity.
      + rewrite orun_snoc, <- EO, E. reflexivity.
    - eapply reached_call; eauto. rewrite M1. discriminate.
    - exact HN.
    - intros p y Hp. destruct (HM p y Hp) as (P & E1 & E2).
      pose proof (method_quiet junk c (dyn_mask c) m a (dyn_ok c Hc m Hm) o) as K. rewrite E in K. cbn [snd] in K.
      destruct (proj2 (like_h _ _ _ K) p P E1) as (P' & F1 & F2 & _). exists P'. split; [exact F1|].
      unfold mass in *. rewrite F2 by reflexivity. exact E2.
  Qed.
  Lemma held_momenta args ms q1 q2 q3 q4 : skeeps (held args ms) (proc_momenta junk c q1 q2 q3 q4).
  Proof.
    intros o H. unfold proc_momenta, sbind. pose proof (held_call args ms o n_set_momenta [GMom q1; GMom q2; GMom q3; GMom q4] H eq_refl) as K.
    destruct (callm junk c n_set_momenta _ o) as [[r|e|u] o']; exact K.
  Qed.
  Lemma held_amp2 args ms f : is_setter f = false -> skeeps (held args ms) (proc_amp2 junk c f).
  Proof.
    intros Hf o H. unfold proc_amp2, sbind. pose proof (held_call args ms o f [] H Hf) as K.
    destruct (callm junk c f [] o) as [[[[x|x]|]|e|u] o']; exact K.
  Qed.

  Lemma legs_some f bb ms : legs f bb = Some ms -> length ms = 4%nat /\ forall p y, nth_error ms p = Some y ->
    exists m q, nth_error (b_P bb) p = Some (Some m, q) /\ tsub f m = Some y.
  Proof.
    unfold legs. assert (K : forall p y, obind (p_leg bb p) (tsub f) = Some y -> exists m q, nth_error (b_P bb) p = Some (Some m, q) /\ tsub f m = Some y).
    { intros p y. unfold p_leg. destruct (nth_error (b_P bb) p) as [[[m|] q]|]; cbn [obind]; try discriminate. eauto. }
    destruct (obind (p_leg bb 0) _) as [y0|] eqn:E0; [|discriminate]. destruct (obind (p_leg bb 1) _) as [y1|] eqn:E1; [|discriminate].
    destruct (obind (p_leg bb 2) _) as [y2|] eqn:E2; [|discriminate]. destruct (obind (p_leg bb 3) _) as [y3|] eqn:E3; [|discriminate].
    intros [= <-]. split; [reflexivity|]. intros p y H. apply K. do 4 (destruct p as [|p]; [cbn in H; congruence|]). destruct p; discriminate H.
  Qed.
  Lemma held_new args ms : length args = length (c_params c) -> legs (f_new args) b = Some ms ->
    exists o, construct junk c (map den args) = (Ok tt, o) /\ held args ms o.
  Proof.
    intros HL HM. apply legs_some in HM as [HN HM].
    destruct (C42_members_partial c Hc num HS junk junk (map den args)) as (o & _ & EC & _); [rewrite map_length; exact HL|].
    exists o. split; [exact EC|]. constructor.
    - exists o, []. auto.
    - eapply reached_new, EC.
    - exact HN.
    - intros p y Hp. destruct (HM p y Hp) as (m & q & E1 & E2).
      destruct (construct_shape junk c _ o b EC EB) as (D & HO). destruct (or_M _ _ _ _ _ _ _ HO p m q E1) as (P & v & F1 & F2 & F3).
      exists P. split; [exact F1|]. unfold mass. rewrite F2. cbn. f_equal. rewrite F3. apply (tsub_sound (f_new args)); [|exact E2].
      intros a z Ha. destruct a; try discriminate Ha. cbn in Ha |- *. change (tZ 0) with (den (num:=num) (TInt 0)). rewrite map_nth.
      f_equal. apply nth_error_nth with (d:=TInt 0) in Ha. exact Ha.
  Qed.
  Lemma held_set args ms ms' f margs o : held args ms o -> find_meth c n_set_masses = Some f -> length margs = length (m_params f) ->
    legs (f_set c b args margs) b2 = Some ms' ->
    exists r, fst (callm junk c n_set_masses (map GT (map den margs)) o) = Ok r /\
              held args ms' (snd (callm junk c n_set_masses (map GT (map den margs)) o)).
  Proof.
    intros H Hf HL HM. destruct H as [(oc & h & EC & Hh & EO) HR HN _]. apply legs_some in HM as [HN' HM].
    destruct (shape_c c Hc) as (b' & EB' & HMs & _). rewrite EB in EB'. injection EB' as <-.
    destruct (setm_c c Hc b f Hf EB) as (HSig & _).
    assert (HSh : shaped b oc) by (eapply construct_shaped; eauto).
    assert (HLk : like (mass_mask c) oc o) by (rewrite EO; apply like_history_m; assumption).
    pose proof (C42_set_masses_returns c f Hc Hf num HS junk (map den args) oc h EC Hh (map den margs) ltac:(rewrite map_length; exact HL)) as K.
    rewrite <- EO in K. destruct (callm junk c n_set_masses (map GT (map den margs)) o) as [r o'] eqn:E. cbn [fst snd] in K |- *.
    destruct r as [r|e|u]; try discriminate K. exists r. split; [reflexivity|]. constructor.
    - exists oc, (h ++ [OCall n_set_masses (map GT (map den margs))])%list. split; [exact EC|]. split.
      + rewrite forallb_app, Hh. reflexivity.
      + rewrite orun_snoc, <- EO, E. reflexivity.
    - eapply reached_call; eauto. reflexivity.
    - exact HN'.
    - intros p y Hp. destruct (HM p y Hp) as (m & q & E1 & E2).
      destruct (construct_shape junk c _ oc b EC EB) as (D0 & HO0).
      destruct (after_setm c b junk oc o (map den margs) r o' b2 HSig (EB2 f Hf) HSh) as (D & HO); [|exact HLk|exact E|].
      { intros x Hx. eapply construct_known; eauto. }
      destruct (or_M _ _ _ _ _ _ _ HO p m q E1) as (P & v & F1 & F2 & F3).
      exists P. split; [exact F1|]. unfold mass. rewrite F2. cbn. f_equal. rewrite F3. apply (tsub_sound (f_set c b args margs)); [|exact E2].
      assert (NEW : forall m y, tsub (f_new args) m = Some y -> denT (rT0 junk (map den args)) rC0 m = den y).
      { intros m0 y0 E0. apply (tsub_sound (f_new args)); [|exact E0].
        intros a z Ha. destruct a; try discriminate Ha. cbn in Ha |- *. change (tZ 0) with (den (num:=num) (TInt 0)). rewrite map_nth.
        f_equal. apply nth_error_nth with (d:=TInt 0) in Ha. exact Ha. }
      intros a z Ha. destruct a; try discriminate Ha; cbn [f_set] in Ha.
      + destruct (k_T (mass_mask c) x) eqn:Ex; [discriminate Ha|]. destruct (b_T b x) as [y0|] eqn:Ey; [|discriminate Ha]. cbn [obind] in Ha.
        destruct (or_T _ _ _ _ _ _ _ HO0 x y0 Ey) as (v0 & G1 & G2). cbn. rewrite G1. cbn. rewrite G2. apply NEW, Ha.
      + destruct (k_P (mass_mask c) p0) eqn:Ex; [discriminate Ha|]. unfold p_leg in Ha.
        destruct (nth_error (b_P b) p0) as [[[y0|] q0]|] eqn:Ey; try discriminate Ha. cbn [obind] in Ha.
        destruct (or_M _ _ _ _ _ _ _ HO0 p0 y0 q0 Ey) as (P0 & v0 & G1 & G2 & G3).
        assert (Hp0 : (p0 < 4)%nat). { rewrite <- (sh_h _ _ HSh). apply nth_error_Some. rewrite G1. discriminate. }
        destruct (proj2 (like_h _ _ _ HLk) p0 P0 G1) as (P1 & H1 & H2 & _).
        cbn. unfold omass. rewrite Nat.min_l by lia. rewrite H1, H2 by exact Ex. rewrite G2. cbn. rewrite G3. apply NEW, Ha.
      + cbn. change (tZ 0) with (den (num:=num) (TInt 0)). rewrite map_nth. f_equal. apply nth_error_nth with (d:=TInt 0) in Ha. exact Ha.
  Qed.
End Object.

(** ** The statements of a test *)
Section Steps.
  Context {num : Num}.
  Hypothesis HS : strict num = false.
  Hypothesis HI : int_literals num.
  Variable junk : id -> nat -> T num.
  Variable fuel : nat.
  Variable tables : nat -> list (T num).
  Variable c : cls.
  Hypothesis Hc : In c sm_classes.
  Variables b b2 : pobj snum.
  Hypothesis EB : shape c = POk b.
  Hypothesis EB2 : forall f, find_meth c n_set_masses = Some f -> setm c b = POk b2.

  Record related (s : sst) (t : tst num) : Prop := mkRelated {
    rl_v : forall x y, ss_vars s x = Some y -> ts_vars t x = Some (den y);
    rl_o : forall ms, ss_m s = Some ms -> exists o, ts_obj t = Some o /\ held junk c (ss_new s) ms o }.
  Lemma related_start g : related sstart (tstart g).
  Proof. constructor; discriminate. Qed.

  (** where the harness is called *)
  Lemma at_runs s s' t m1 m2 m3 m4 p runs : related s t -> sstep c b b2 (TRuns m1 m2 m3 m4 p runs) s = Some s' ->
    exists y1 y2 y3 y4 yp ms o,
      s' = s /\ xevals (ts_vars t) [m1; m2; m3; m4; p] = Ok (map den [y1; y2; y3; y4; yp]) /\
      ts_obj t = Some o /\ held junk c (ss_new s) ms o /\ ss_m s = Some ms /\
      map (den (num:=num)) ms = map den [y1; y2; y3; y4] /\
      kin_ok c y1 y2 y3 y4 yp = true /\ forallb (fun r => variant c (snd (fst r))) runs = true.
  Proof.
    intros [HV HO]. cbn [sstep]. destruct (sxs (ss_vars s) [m1; m2; m3; m4; p]) as [ys|] eqn:EX; [|discriminate].
    pose proof (sxs_sound (ss_vars s) (ts_vars t) HV _ _ EX) as EV.
    destruct ys as [|y1 [|y2 [|y3 [|y4 [|yp [|]]]]]]; try discriminate.
    destruct (ss_m s) as [[|n1 [|n2 [|n3 [|n4 [|]]]]]|] eqn:EM; try discriminate.
    destruct (teq y1 n1 && teq y2 n2 && teq y3 n3 && teq y4 n4 && kin_ok c y1 y2 y3 y4 yp && forallb (fun r => variant c (snd (fst r))) runs) eqn:E; [|discriminate].
    intros [= <-]. repeat (apply andb_prop in E as [E ?]).
    destruct (HO _ eq_refl) as (o & Eo & Ho). exists y1, y2, y3, y4, yp, [n1; n2; n3; n4], o.
    repeat (split; auto).
    cbn [map]. rewrite (teq_sound HI y1 n1), (teq_sound HI y2 n2), (teq_sound HI y3 n3), (teq_sound HI y4 n4) by assumption. reflexivity.
  Qed.
  Lemma held_legs args ms o y1 y2 y3 y4 : held junk c args ms o -> map (den (num:=num)) ms = map den [y1; y2; y3; y4] ->
    leg_mass o 0 (den y1) /\ leg_mass o 1 (den y2) /\ leg_mass o 2 (den y3) /\ leg_mass o 3 (den y4).
  Proof.
    intros H E. destruct ms as [|n1 [|n2 [|n3 [|n4 [|]]]]]; try discriminate E. injection E as <- <- <- <-.
    repeat split; [apply (hd_m _ _ _ _ _ H 0%nat)|apply (hd_m _ _ _ _ _ H 1%nat)|apply (hd_m _ _ _ _ _ H 2%nat)|apply (hd_m _ _ _ _ _ H 3%nat)]; reflexivity.
  Qed.
  (** all other statements return *)
  Lemma step_returns st s s' t i : related s t -> sstep c b b2 st s = Some s' ->
    match st with TRuns _ _ _ _ _ _ => True | _ => exists t', tstep junk fuel tables c st i t = (Ok i, t') /\ related s' t' /\ ts_rng t' = ts_rng t end.
  Proof.
    intros [HV HO]. destruct st as [x e|args|m args|]; [..|auto]; cbn [sstep tstep].
    - destruct (sx (ss_vars s) e) as [y|] eqn:EX; [|discriminate]. cbn [option_map]. intros [= <-].
      rewrite (sx_sound (ss_vars s) (ts_vars t) HV _ _ EX). eexists. split; [reflexivity|]. split; [|reflexivity]. constructor; cbn [ts_vars ts_obj ss_vars ss_m ss_new]; [|exact HO].
      intros z w. unfold upd. destruct (Pos.eqb x z); [|apply HV]. intros [= <-]. reflexivity.
    - destruct (sxs (ss_vars s) args) as [ys|] eqn:EX; [|discriminate]. cbn [obind].
      destruct (Nat.eqb_spec (length ys) (length (c_params c))) as [HL|]; [|discriminate].
      destruct (legs (f_new ys) b) as [ms|] eqn:EL; [|discriminate]. cbn [option_map]. intros [= <-].
      rewrite (sxs_sound (ss_vars s) (ts_vars t) HV _ _ EX).
      destruct (held_new HS junk c Hc b EB ys ms HL EL) as (o & EC & Ho). rewrite EC.
      eexists. split; [reflexivity|]. split; [|reflexivity]. constructor; cbn [ts_vars ts_obj ss_vars ss_m ss_new]; [exact HV|].
      intros ms' [= <-]. eauto.
    - destruct (sxs (ss_vars s) args) as [ys|] eqn:EX; [|discriminate]. cbn [obind].
      destruct (find_meth c n_set_masses) as [f|] eqn:Ef; [|discriminate]. destruct (ss_m s) as [ms|] eqn:EM; [|discriminate].
      destruct (Pos.eqb_spec m n_set_masses) as [->|]; [|discriminate]. destruct (Nat.eqb_spec (length ys) (length (m_params f))) as [HL|]; [|discriminate].
      cbn [andb]. destruct (legs (f_set c b (ss_new s) ys) b2) as [ms'|] eqn:EL; [|discriminate]. cbn [option_map]. intros [= <-].
      rewrite (sxs_sound (ss_vars s) (ts_vars t) HV _ _ EX).
      destruct (HO ms eq_refl) as (o & Eo & Ho). rewrite Eo.
      destruct (held_set HS junk c Hc b b2 EB (fun _ _ => EB2 f eq_refl) (ss_new s) ms ms' f ys o Ho Ef HL EL) as (r & E1 & E2).
      destruct (callm junk c n_set_masses (map GT (map den ys)) o) as [r' o']. cbn [fst snd] in E1, E2. subst r'.
      eexists. split; [reflexivity|]. split; [|reflexivity]. constructor; cbn [ts_vars ts_obj ss_vars ss_m ss_new]; [exact HV|].
      intros ms0 [= <-]. eauto.
  Qed.
  Lemma held_harness args ms h f : variant c f = true -> forall m1 m2 m3 m4 p data,
    pkeeps (held junk c args ms) (harness junk fuel c h f m1 m2 m3 m4 p data).
  Proof.
    intros Hf m1 m2 m3 m4 p data. destruct (variant_real junk c f Hf) as (_ & HSt & _).
    assert (A := held_momenta junk c Hc args ms). assert (B := held_amp2 junk c Hc args ms f HSt).
    destruct h; cbn [harness]; [apply pk_lab|apply pk_rot|apply pk_boost|apply pk_both]; auto.
  Qed.
  Lemma held_all args ms m1 m2 m3 m4 p runs : forallb (fun r => variant c (snd (fst r))) runs = true -> forall i,
    pkeeps (held junk c args ms) (run_all junk fuel tables c m1 m2 m3 m4 p runs i).
  Proof.
    induction runs as [|[[h f] k] runs IH]; intros H i; cbn [run_all]; [apply pk_ret|]. cbn [forallb] in H. apply andb_prop in H as [H1 H2].
    apply pk_bind; [apply held_harness, H1|]. intros z. apply pk_bind; [apply pk_lift|]. intros i'. apply IH, H2.
  Qed.
  Lemma step_keeps st s s' t i z t' : related s t -> sstep c b b2 st s = Some s' ->
    tstep junk fuel tables c st i t = (Ok z, t') -> related s' t'.
  Proof.
    intros HR ES ET. pose proof (step_returns st s s' t i HR ES) as K.
    destruct st as [x e|args|m args|m1 m2 m3 m4 p runs]; try (destruct K as (t1 & K1 & K2 & _); rewrite K1 in ET; injection ET as _ <-; exact K2).
    destruct (at_runs s s' t m1 m2 m3 m4 p runs HR ES) as (y1 & y2 & y3 & y4 & yp & ms & o & -> & EX & Eo & Ho & EM & _ & _ & HVr).
    cbn [tstep] in ET. rewrite EX, Eo in ET. cbn [map] in ET.
    pose proof (held_all (ss_new s) ms (den y1) (den y2) (den y3) (den y4) (den yp) runs HVr i (o, ts_rng t) Ho) as K'.
    destruct (run_all junk fuel tables c (den y1) (den y2) (den y3) (den y4) (den yp) runs i (o, ts_rng t)) as [r og].
    injection ET as _ <-. cbn [snd] in K'. constructor; cbn [ts_vars ts_obj].
    - apply HR.
    - rewrite EM. intros ms' [= <-]. eauto.
  Qed.
  Lemma steps_keep l : forall s s' t i z t', related s t -> ssteps c b b2 l s = Some s' ->
    texec junk fuel tables c l i t = (Ok z, t') -> related s' t'.
  Proof.
    induction l as [|st l IH]; intros s s' t i z t' HR ES ET; cbn [ssteps texec] in *.
    - injection ES as <-. injection ET as _ <-. exact HR.
    - destruct (sstep c b b2 st s) as [s1|] eqn:E1; [|discriminate ES]. cbn [obind] in ES. unfold sbind in ET.
      destruct (tstep junk fuel tables c st i t) as [[z1|e|u] t1] eqn:E2; try discriminate ET.
      eapply IH; [|exact ES|exact ET]. eapply step_keeps; eauto.
  Qed.
  Lemma ssteps_app l1 : forall l2 s s', ssteps c b b2 (l1 ++ l2) s = Some s' ->
    exists s1, ssteps c b b2 l1 s = Some s1 /\ ssteps c b b2 l2 s1 = Some s'.
  Proof.
    induction l1 as [|st l1 IH]; intros l2 s s'; cbn [app ssteps]; [eauto|].
    destruct (sstep c b b2 st s) as [s1|]; cbn [obind]; [apply IH|discriminate].
  Qed.
End Steps.

(** ** Exact arithmetic: the runs return *)
Section RealRuns.
  Variable eps : R.
  Hypothesis Heps : (0 <= eps)%R.
  Notation num := (RN false eps).
  Variable junk : id -> nat -> T num.
  Variable late : Prop.
  Variable fuel : nat.
  Variable tables : nat -> list (T num).
  Hypothesis Htab : forall k, length (tables k) = 20%nat.
  Variable c : cls.
  Hypothesis Hc : In c sm_classes.
  Variables b b2 : pobj snum.
  Hypothesis EB : shape c = POk b.
  Hypothesis EB2 : forall f, find_meth c n_set_masses = Some f -> setm c b = POk b2.

  Lemma int_literals_R : int_literals num.
  Proof. intros z _. unfold lit. cbn. unfold Q2R. cbn. lra. Qed.
  Lemma leg_ok_zero p y : leg_ok c p y = true -> leg c p = Some true -> den (num:=num) y = 0%R.
  Proof.
    unfold leg_ok. intros H E. rewrite E in H. destruct (as_int y) as [z|] eqn:EZ; [|discriminate H]. apply Z.eqb_eq in H. subst z.
    rewrite (as_int_sound int_literals_R y 0 EZ). reflexivity.
  Qed.
  Lemma leg_ok_nonzero p y : leg_ok c p y = true -> leg c p = Some false -> den (num:=num) y <> 0%R.
  Proof.
    unfold leg_ok. intros H E. rewrite E in H. destruct (ival y) as [[l h]|] eqn:EZ; [|discriminate H]. apply Z.ltb_lt, IZR_lt in H.
    destruct (ival_sound false eps y _ EZ) as [_ [K _]]. cbn [fst] in K. intros Z. change (T num) with R in *. rewrite Z in K. lra.
  Qed.
  Lemma kin_amp args ms y1 y2 y3 y4 yp f : kin_ok c y1 y2 y3 y4 yp = true -> variant c f = true ->
    map (den (num:=num)) ms = map (den (num:=num)) [y1; y2; y3; y4] ->
    forall q o, held (num:=num) junk c args ms o ->
      on_shell4 false eps (den (num:=num) y1) (den (num:=num) y2) (den (num:=num) y3) (den (num:=num) y4) q ->
    exists a o', (proc_momenta (num:=num) junk c (q_1 q) (q_2 q) (q_3 q) (q_4 q) ;; proc_amp2 (num:=num) junk c f) o = (Ok a, o') /\
      held (num:=num) junk c args ms o'.
  Proof.
    intros HK HV HE q o Ho (S1 & S2 & S3 & S4). destruct (held_legs (num:=num) junk c args ms o y1 y2 y3 y4 Ho HE) as (L1 & L2 & L3 & L4).
    destruct (variant_real (num:=num) junk c f HV) as (HA & HSt & HRt).
    unfold kin_ok in HK. apply andb_prop in HK as [HK _]. apply andb_prop in HK as [HK K4]. apply andb_prop in HK as [HK K3]. apply andb_prop in HK as [K1 K2].
    destruct (C45_no_exception_on_shell c Hc false eps Heps junk o (hd_r _ _ _ _ _ Ho) _ _ _ _ L1 L2 L3 L4) with (q1 := q_1 q) (q2 := q_2 q) (q3 := q_3 q) (q4 := q_4 q) as (E & G); try assumption.
    { intros p m [H|[H|[H|[H|[]]]]]; injection H as <- <-; eauto using leg_ok_zero. }
    { intros p m [H|[H|[H|[H|[]]]]]; injection H as <- <-; eauto using leg_ok_nonzero. }
    specialize (G [] eq_refl f HA). cbn [orun snd] in G.
    unfold proc_momenta, proc_amp2, sbind.
    pose proof (held_call (num:=num) junk c Hc args ms o n_set_momenta [GMom (num:=num) (q_1 q); GMom (num:=num) (q_2 q); GMom (num:=num) (q_3 q); GMom (num:=num) (q_4 q)] Ho eq_refl) as H1.
    change (mom num) with (vec4 R) in *.
    destruct (callm (num:=num) junk c n_set_momenta _ o) as [r o1]. cbn [fst snd] in E, G, H1. subst r. cbn [sret].
    pose proof (held_call (num:=num) junk c Hc args ms o1 f [] H1 HSt) as H2. destruct G as (x & G). specialize (HRt o1 x G).
    destruct (callm (num:=num) junk c f [] o1) as [r o2]. cbn [fst snd] in G, H2. subst r. destruct HRt as (v & ->). exists v, o2. auto.
  Qed.

  Notation D := (den (num:=num)).
  Lemma harness_in_time args ms y1 y2 y3 y4 yp h f k : kin_ok c y1 y2 y3 y4 yp = true -> variant c f = true ->
    map D ms = map D [y1; y2; y3; y4] ->
    forall s, held (num:=num) junk c args ms (fst s) -> rng_ready false eps late fuel (snd s) ->
    in_time late (ok (num:=num) (held (num:=num) junk c args ms) (rng_ready false eps late fuel) 0 200)
      (harness (num:=num) junk fuel c h f (D y1) (D y2) (D y3) (D y4) (D yp) (tables k) s).
  Proof.
    intros HK HV HE s Ho Hg. assert (HA := kin_amp args ms y1 y2 y3 y4 yp f HK HV HE).
    assert (HR := rotate_moves false eps (D y1) (D y2) (D y3) (D y4) late fuel).
    assert (HB := boost_moves false eps (D y1) (D y2) (D y3) (D y4) late fuel).
    assert (HL := lab_on_shell false eps (D y1) (D y2) (D y3) (D y4) (D yp)).
    destruct h; cbn [harness].
    - eapply lab_returns; eauto.
    - eapply rotations_return; eauto.
    - eapply boosts_return; eauto.
    - eapply both_return; eauto.
  Qed.
  Lemma all_in_time args ms y1 y2 y3 y4 yp : kin_ok c y1 y2 y3 y4 yp = true -> map D ms = map D [y1; y2; y3; y4] ->
    forall runs, forallb (fun r => variant c (snd (fst r))) runs = true ->
    forall i n s, (0 <= i <= 200 * n)%Z -> (0 <= n /\ n + Z.of_nat (length runs) <= 1000000)%Z ->
      held (num:=num) junk c args ms (fst s) -> rng_ready false eps late fuel (snd s) ->
    in_time late (ok (num:=num) (held (num:=num) junk c args ms) (rng_ready false eps late fuel) 0 (200 * (n + Z.of_nat (length runs))))
      (run_all (num:=num) junk fuel tables c (D y1) (D y2) (D y3) (D y4) (D yp) runs i s).
  Proof.
    intros HK HE. induction runs as [|[[h f] k] runs IH]; intros HV i n s Hi Hn Ho Hg; cbn [run_all].
    - cbn [length Z.of_nat]. rewrite Z.add_0_r. split; auto.
    - cbn [forallb] in HV. apply andb_prop in HV as [H1 H2]. cbn [snd fst] in H1. cbn [length] in Hn |- *. rewrite Nat2Z.inj_succ in *.
      eapply in_time_bind; [eapply harness_in_time; eauto|]. cbn beta. intros z s' (Hz & Ho' & Hg').
      unfold sbind, slift, int_add, int_res. replace (in_int (i + z)) with true.
      + replace (n + Z.succ (Z.of_nat (length runs)))%Z with (n + 1 + Z.of_nat (length runs))%Z by lia.
        apply IH; [exact H2|lia|lia|exact Ho'|exact Hg'].
      + symmetry. unfold in_int, int_min, int_max. apply andb_true_intro. split; apply Z.leb_le; lia.
  Qed.
  Lemma nruns_nonneg l : (0 <= nruns l)%Z.
  Proof. unfold nruns. induction l as [|[] l IH]; cbn [fold_right]; lia. Qed.
  Lemma steps_in_time l : forall s s' t i n, related (num:=num) junk c s t -> ssteps c b b2 l s = Some s' ->
    (0 <= i <= 200 * n)%Z -> (0 <= n /\ n + nruns l <= 1000000)%Z -> rng_ready false eps late fuel (ts_rng t) ->
    in_time late (fun z t' => (0 <= z <= 200 * (n + nruns l))%Z /\ rng_ready false eps late fuel (ts_rng t'))
      (texec (num:=num) junk fuel tables c l i t).
  Proof.
    induction l as [|st l IH]; intros s s' t i n HR ES Hi Hn Hg; cbn [ssteps texec] in *.
    - cbn [nruns fold_right]. rewrite Z.add_0_r. split; assumption.
    - destruct (sstep c b b2 st s) as [s1|] eqn:E1; [|discriminate ES]. cbn [obind] in ES.
      pose proof (step_returns (num:=num) eq_refl junk fuel tables c Hc b b2 EB EB2 st s s1 t i HR E1) as K.
      assert (NR : forall st', match st' with TRuns _ _ _ _ _ _ => False | _ => True end -> nruns (st' :: l) = nruns l).
      { intros [] H; try contradiction; reflexivity. }
      destruct st as [x e|args|m args|m1 m2 m3 m4 p runs];
        try (destruct K as (t1 & K1 & K2 & K3); rewrite NR in * by exact I; unfold sbind; rewrite K1;
             apply (IH s1 s' t1 i n K2 ES Hi Hn); rewrite K3; exact Hg).
      destruct (at_runs (num:=num) (int_literals_R) junk c b b2 s s1 t m1 m2 m3 m4 p runs HR E1)
        as (y1 & y2 & y3 & y4 & yp & ms & o & -> & EX & Eo & Ho & EM & HE & HK & HVr).
      change (nruns (TRuns m1 m2 m3 m4 p runs :: l)) with (Z.of_nat (length runs) + nruns l)%Z in *.
      pose proof (nruns_nonneg l) as NL.
      pose proof (all_in_time (ss_new s) ms y1 y2 y3 y4 yp HK HE runs HVr i n (o, ts_rng t) Hi ltac:(lia) Ho Hg) as A.
      eapply in_time_bind with (P := fun z t' => (0 <= z <= 200 * (n + Z.of_nat (length runs)))%Z /\ related (num:=num) junk c s t' /\ rng_ready false eps late fuel (ts_rng t')).
      + cbn [tstep]. rewrite EX, Eo. cbn [map].
        destruct (run_all (num:=num) junk fuel tables c (D y1) (D y2) (D y3) (D y4) (D yp) runs i (o, ts_rng t)) as [[z|e|u] og]; cbn [in_time] in A |- *; [|exact A|exact A].
        destruct A as (A1 & A2 & A3). split; [exact A1|]. split; [|exact A3]. constructor; cbn [ts_vars ts_obj]; [apply HR|].
        rewrite EM. intros ms' [= <-]. eauto.
      + cbn beta. intros z t' (Hz & HR' & Hg'). rewrite Z.add_assoc. apply (IH s s' t' z); auto. lia.
  Qed.
End RealRuns.
