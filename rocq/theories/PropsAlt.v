(** * amp2 with the momenta as arguments: C54

    Four classes have a second amp2, which takes the momenta itself (SM/eemmQED.cpp 100-144,
    SM/eeeeQED.cpp 116-166, SM/eeAA.cpp 137-188, SM/eAeh.cpp 144-194). *)
From Coq Require Import Reals QArith Qreals String Ascii Lra Lia.
From Coquelicot Require Import Complex.
From Flocq Require Import Core BinarySingleNaN.
From Verif Require Import Base Scalar IEEE SMFloat RealNum Linear Integers Particle Sproduct Propagator Process
  ParticleProofs SpecSpinor ParticleReal SpinorReal Ready ParticleClaims SpecSproduct SpecChain ChainReal Lorentz
  WorldProofs Lang LangFrame Pure PureProofs ReadOnly Sym SymEq SMNames SMRun SMTwins SMMasses SMAll SMChecks SMState PropsClasses PropsConstruct
  SMAmp2 SpinColour SMInv PropsAmp2 PropsGluons PropsWidth Poly Covariant CovReal PropsLorentz PropsQED.
Close Scope Q_scope.
Close Scope R_scope.
Open Scope nat_scope.

(** ** The terms *)
Notation leaff := (bool -> option Z -> nat -> option Z -> nat -> sC).
Definition cprod : leaff := fun angle s p s' p' => CProd angle s (dleg p) SNil s' (dleg p').
Definition cdot (l r : bool -> sC) : sC := COp Add (COp Mul (l false) (r false)) (COp Mul (l true) (r true)).
Definition cvv : leaff := fun angle s p s' p' => cdot (CSp (left_side angle) s (dleg p)) (CSp (right_side angle 0) s' (dleg p')).
(** [p k p'> *)
Notation leaff1 := (nat -> nat -> nat -> sC).
Definition cprod1 : leaff1 := fun p k p' => CProd false None (dleg p) (SCons (dleg k) SNil) None (dleg p').
Definition cvmv : leaff1 := fun p k p' =>
  let l := CSp LSquare None (dleg p) in let m := CMt true (dleg k) in
  cdot (fun j => COp Add (COp Add (CMk (TInt 0) (TInt 0)) (COp Mul (l false) (m false j))) (COp Mul (l true) (m true j))) (CSp RAngle None (dleg p')).
(** the denominator of the propagator of (mom1 + mom2) or (mom1 - mom_k) *)
Definition sden_of (k : nat -> sT) : sC :=
  let sq x := TOp Mul x x in
  CMk (TOp Sub (TOp Sub (TOp Sub (TOp Sub (sq (k 0)) (sq (k 1))) (sq (k 2))) (sq (k 3))) (sq (TAt (APm n_prop))))%nat
      (TOp Mul (TNeg (TAt (APm n_prop))) (TAt (APw n_prop))).
Definition denS : sC := sden_of (fun mu => TOp Add (TAt (AMom 0 mu)) (TAt (AMom 1 mu))).
Definition denTU (p : nat) : sC := sden_of (fun mu => TOp Sub (TAt (AMom 0 mu)) (TAt (AMom p mu))).
Definition sumsq (l : list sC) (t0 : sT) : sT := fold_left (fun acc x => TOp Add acc (TPw (TAbs x))) l t0.
Definition zz (s : bool) : option Z := Some (zb s).
Section Terms.
  Variables (f : leaff) (f1 : leaff1).
  Let e := TAt (AMem n_e).
  (** <13>[24] + <14>[23] + [13]<24> + [14]<23> *)
  Definition num13 (s1 s2 s3 s4 : bool) : sC :=
    COp Add (COp Add (COp Add (COp Mul (f true (zz s1) 0 (zz s3) 2) (f false (zz s2) 1 (zz s4) 3))
                              (COp Mul (f true (zz s1) 0 (zz s4) 3) (f false (zz s2) 1 (zz s3) 2)))
                     (COp Mul (f false (zz s1) 0 (zz s3) 2) (f true (zz s2) 1 (zz s4) 3)))
            (COp Mul (f false (zz s1) 0 (zz s4) 3) (f true (zz s2) 1 (zz s3) 2)).
  (** <12>[34] + <14>[23] + [12]<34> + [14]<23> *)
  Definition num12 (s1 s2 s3 s4 : bool) : sC :=
    COp Add (COp Add (COp Add (COp Mul (f true (zz s1) 0 (zz s2) 1) (f false (zz s3) 2 (zz s4) 3))
                              (COp Mul (f true (zz s1) 0 (zz s4) 3) (f false (zz s2) 1 (zz s3) 2)))
                     (COp Mul (f false (zz s1) 0 (zz s2) 1) (f true (zz s3) 2 (zz s4) 3)))
            (COp Mul (f false (zz s1) 0 (zz s4) 3) (f true (zz s2) 1 (zz s3) 2)).
  Definition four (g : bool -> bool -> bool -> bool -> sC) : list sC := map (fun s => let '(a, b, c, d) := s in g a b c d) spins4.
  (** eeAA: the photons have helicities ++, --, +-, -+; [w] goes with me *)
  Definition a34 := f true None 2 None 3.
  Definition s34 := f false None 2 None 3.
  Definition numPP (w : sT) (s1 s2 : bool) : sC := COp Mul (COp Mul (CTC Mul w s34) s34) (f true (zz s1) 0 (zz s2) 1).
  Definition numMM (w : sT) (s1 s2 : bool) : sC := COp Mul (COp Mul (CTC Mul w a34) a34) (f false (zz s1) 0 (zz s2) 1).
  Definition sumPM (s1 s2 : bool) : sC :=
    COp Add (COp Mul (f false (zz s1) 0 None 2) (f true (zz s2) 1 None 3)) (COp Mul (f false (zz s2) 1 None 2) (f true (zz s1) 0 None 3)).
  Definition sumMP (s1 s2 : bool) : sC :=
    COp Add (COp Mul (f true (zz s1) 0 None 2) (f false (zz s2) 1 None 3)) (COp Mul (f true (zz s2) 1 None 2) (f false (zz s1) 0 None 3)).
End Terms.
Definition two_ (n : bool) : sT := if n then TofD (DNeg (DLit 2)) else TofD (DLit 2).
Definition lit4 : sT := TofD (DLit 4).
Definition mem_e : sT := TAt (AMem n_e).
Definition mem_me : sT := TAt (AMem n_me).
Definition ee (w : sT) : sT := TOp Mul (TOp Mul w mem_e) mem_e.

Definition eemm_main : sT := TOp Div (sumsq (four (fun a b c d => COp Div (CTC Mul (ee (two_ true)) (num13 cprod a b c d)) denS)) (TInt 0)) lit4.
Definition eemm_alt : sT :=
  TOp Div (TOp Div (TOp Div (TOp Mul (ee (ee lit4)) (sumsq (four (fun a b c d => CNeg (num13 cvv a b c d))) (TInt 0))) (TRe denS)) (TRe denS)) lit4.
Definition eeee_main : sT := TOp Div (sumsq (four (fun a b c d =>
  COp Sub (COp Div (CTC Mul (ee (two_ true)) (num13 cprod a b c d)) denS) (COp Div (CTC Mul (ee (two_ false)) (num12 cprod a b c d)) (denTU 2)))) (TInt 0)) lit4.
Definition eeee_alt : sT := TOp Div (TOp Mul (TOp Mul (TOp Mul (TOp Mul mem_e mem_e) mem_e) mem_e) (sumsq (four (fun a b c d =>
  COp Sub (COp Div (CTC Mul (TNeg (TInt 2)) (num13 cvv a b c d)) denS) (COp Div (CTC Mul (TInt 2) (num12 cvv a b c d)) (denTU 2)))) (TInt 0))) lit4.

Definition two2 : list (bool * bool) := [(false, false); (false, true); (true, false); (true, true)].
Definition over2 (x : sC) : sC := COp Div (COp Div x (denTU 2)) (denTU 3).
Definition eeAA_main : sT := TOp Div (sumsq (flat_map (fun s => let '(a, b) := s in
  [over2 (numMM cprod (TOp Mul (ee (two_ false)) mem_me) a b);
   over2 (COp Mul (CTC Mul (ee (two_ false)) (sumMP cprod a b)) (cprod1 3 0 2));
   over2 (COp Mul (CTC Mul (ee (two_ false)) (sumPM cprod a b)) (cprod1 2 0 3));
   over2 (numPP cprod (TOp Mul (ee (two_ false)) mem_me) a b)]) two2) (TInt 0)) (TofD (DLit 8)).
Definition eeAA_alt : sT :=
  let sq x := TPw (TAbs x) in
  TOp Div (TOp Div (TOp Div (TOp Div (TOp Div (TOp Mul (TOp Mul (TOp Mul (TOp Mul (TOp Mul mem_e mem_e) mem_e) mem_e) lit4)
    (fold_left (fun acc s => let '(a, b) := s in
       TOp Add acc (TOp Add (TOp Add (TOp Add (sq (numPP cvv mem_me a b)) (sq (numMM cvv mem_me a b)))
                                     (sq (COp Mul (sumPM cvv a b) (cvmv 2 0 3)))) (sq (COp Mul (sumMP cvv a b) (cvmv 3 0 2))))) two2 (TInt 0)))
    (TRe (denTU 2))) (TRe (denTU 2))) (TRe (denTU 3))) (TRe (denTU 3))) (TofD (DLit 8)).

Definition alt_term (c : cls) (b : pobj snum) (pat : nat -> bool) := pmethod (Qj pat) c (pinner (Qj pat) c) n_amp2_momenta smoms (jobj (dyn_mask c) b).
Definition main_term (c : cls) (b : pobj snum) (pat : nat -> bool) :=
  match after c (dyn_mask c) b pat with POk (None, b1) => answer c pat n_amp2 b1 | _ => PNone end.
Definition is_term {A} (r : pres (option (ret snum) * A)) (t : sT) : bool := match r with POk (Some (RtT y), _) => eqT y t | _ => false end.
Definition alt_check (c : cls) (main alt : sT) : bool :=
  match shape c with
  | POk b => forallb (fun pat => if fits c pat then is_term (main_term c b pat) main && is_term (alt_term c b pat) alt
                             else match main_term c b pat, alt_term c b pat with PExn _, PExn _ => true | _, _ => false end) all_pats
  | _ => false end.

Definition alt_classes : list (cls * (sT * sT)) := [(eemmQED, (eemm_main, eemm_alt)); (eeeeQED, (eeee_main, eeee_alt)); (eeAA, (eeAA_main, eeAA_alt))].
Lemma alt_checks : forallb (fun x => alt_check (fst x) (fst (snd x)) (snd (snd x))) alt_classes = true.
Proof. vm_cast_no_check (eq_refl true). Qed.

(** ** Their values *)
Section Values.
  Variables (st : bool) (eps : R).
  Notation num := (RN st eps).
  Variable rT : tatom -> R.
  Variable rC : id -> list Z -> C.
  Notation dT := (denT (num:=num) rT rC).
  Notation dC := (denC (num:=num) rT rC).
  Open Scope R_scope.
  Lemma sumsq_den l : forall t0, dT (sumsq l t0) = dT t0 + Rsum (fun x => Cmod (dC x) ^ 2) l.
  Proof.
    induction l as [|x l IH]; intros t0; cbn [sumsq fold_left Rsum]; [symmetry; apply Rplus_0_r|]. unfold sumsq in IH |- *. cbn [fold_left]. rewrite IH.
    change (dT (TOp Add t0 (TPw (TAbs x)))) with (dT t0 + Cmod (dC x) * Cmod (dC x)). cbn [pow]. rewrite Rmult_1_r. apply Rplus_assoc.
  Qed.
  Lemma cvv_den angle s p s' p' : dC (cvv angle s p s' p') = dC (cprod angle s p s' p').
  Proof.
    unfold cvv, cprod, cdot. cbn [denC map]. unfold chain. cbn [map chain_mats length obind].
    change (right_side angle (length (@nil (particle num)))) with (right_side angle 0).
    destruct (end_spinor (left_side angle) (sspin s) _) as [l| |] eqn:El; cbn [obind okd].
    - destruct (end_spinor (right_side angle 0) (sspin s') _) as [r| |]; cbn [obind okd]; [reflexivity| |];
        apply C_ext; inR; cbn; ring.
    - apply C_ext; inR; cbn; ring.
    - apply C_ext; inR; cbn; ring.
  Qed.
  Lemma cvmv_den p k p' : dC (cvmv p k p') = dC (cprod1 p k p').
  Proof.
    unfold cvmv, cprod1, cdot. cbn [denC denT dends dend map]. unfold chain. cbn [map chain_mats length negb obind].
    change (left_side false) with LSquare. change (right_side false 1) with RAngle.
    match goal with |- context [end_spinor LSquare ?s ?P] => destruct (end_spinor LSquare s P) as [l| |] end; cbn [obind okd];
    match goal with |- context [umat ?P] => destruct (fst (umat P)) as [m| |] end; cbn [obind okd];
    match goal with |- context [end_spinor RAngle ?s ?P] => destruct (end_spinor RAngle s P) as [r| |] end; cbn [obind okd]; try reflexivity;
      apply C_ext; inR; cbn; ring.
  Qed.
  Lemma d_add x y : dC (COp Add x y) = Cplus (dC x) (dC y). Proof. reflexivity. Qed.
  Lemma d_sub x y : dC (COp Sub x y) = Cminus (dC x) (dC y). Proof. reflexivity. Qed.
  Lemma d_mul x y : dC (COp Mul x y) = Cmult (dC x) (dC y). Proof. reflexivity. Qed.
  Lemma d_div x y : dC (COp Div x y) = Cdiv (dC x) (dC y). Proof. reflexivity. Qed.
  Lemma d_neg x : dC (CNeg x) = Copp (dC x). Proof. reflexivity. Qed.
  Lemma d_real x y : dC (CTC Mul x y) = Cmult (RtoC (dT x)) (dC y). Proof. reflexivity. Qed.
  Lemma num13_den a b c d : dC (num13 cvv a b c d) = dC (num13 cprod a b c d).
  Proof. unfold num13. rewrite !d_add, !d_mul, !cvv_den. reflexivity. Qed.
  Lemma num12_den a b c d : dC (num12 cvv a b c d) = dC (num12 cprod a b c d).
  Proof. unfold num12. rewrite !d_add, !d_mul, !cvv_den. reflexivity. Qed.
  Notation e := (rT (AMem n_e)).
  Lemma two_den n : dT (two_ n) = if n then - 2 else 2.
  Proof. destruct n; cbn; unfold lit; lra. Qed.
  Lemma lit4_den : dT lit4 = 4.
  Proof. cbn. unfold lit. lra. Qed.
  Lemma ee_den w : dT (ee w) = dT w * e * e.
  Proof. reflexivity. Qed.
  Lemma scaled k (x y : C) : y = Cmult (RtoC k) x -> Cmod y ^ 2 = k ^ 2 * Cmod x ^ 2.
  Proof. intros ->. rewrite Cmod_mult, Cmod_R, Rpow_mult_distr, <- (pow2_abs k). reflexivity. Qed.
  Lemma four_den g : Rsum (fun x => Cmod (dC x) ^ 2) (four g) = Rsum (fun s => let '(a, b, c, d) := s in Cmod (dC (g a b c d)) ^ 2) spins4.
  Proof. unfold four. rewrite Rsum_map. apply Rsum_ext. intros [[[a b] c] d] _. reflexivity. Qed.
  Lemma over_real (x : C) d : Cmod (Cdiv x (RtoC d)) ^ 2 = Cmod x ^ 2 / d / d.
  Proof.
    destruct (Req_dec d 0) as [->|Hd].
    - replace (Cdiv x (RtoC 0)) with (RtoC 0) by (apply C_ext; cbn; unfold Rdiv; ring). rewrite Cmod_0. unfold Rdiv. rewrite Rinv_0. ring.
    - rewrite Cmod_div by (intros X; apply Hd, RtoC_inj, X). rewrite Cmod_R. unfold Rdiv. rewrite Rpow_mult_distr, pow_inv, pow2_abs. field. exact Hd.
  Qed.
  Lemma Rsum_scale (A : Type) (f g : A -> R) k l : (forall x, In x l -> g x = k * f x) -> Rsum g l = k * Rsum f l.
  Proof. induction l as [|x l IH]; intros H; cbn [Rsum]; [ring|]. rewrite IH by (intros; apply H; right; assumption). rewrite H by (left; reflexivity). ring. Qed.
  Lemma t_div x y : dT (TOp Div x y) = dT x / dT y. Proof. reflexivity. Qed.
  Lemma t_mul x y : dT (TOp Mul x y) = dT x * dT y. Proof. reflexivity. Qed.
  Lemma t_add x y : dT (TOp Add x y) = dT x + dT y. Proof. reflexivity. Qed.
  Lemma t_neg x : dT (TNeg x) = - dT x. Proof. reflexivity. Qed.
  Lemma t_re x : dT (TRe x) = fst (dC x). Proof. reflexivity. Qed.
  Lemma t_sq x : dT (TPw (TAbs x)) = Cmod (dC x) ^ 2. Proof. change (Cmod (dC x) * Cmod (dC x) = Cmod (dC x) ^ 2). ring. Qed.
  Lemma t_int0 : dT (TInt 0) = 0. Proof. cbn. lra. Qed.
  Lemma t_int2 : dT (TInt 2) = 2. Proof. cbn. lra. Qed.
  Lemma lit8_den : dT (TofD (DLit 8)) = 8. Proof. cbn. unfold lit. lra. Qed.
  Lemma e_den : dT mem_e = e. Proof. reflexivity. Qed.
  Lemma me_den : dT mem_me = rT (AMem n_me). Proof. reflexivity. Qed.
  Lemma eemm_same d : dC denS = RtoC d -> dT eemm_main = dT eemm_alt.
  Proof.
    intros HS. unfold eemm_main, eemm_alt.
    rewrite !t_div, !t_mul, !t_re, !HS, !sumsq_den, !four_den, !t_int0, !ee_den, lit4_den, !Rplus_0_l. cbn [fst RtoC].
    rewrite (Rsum_scale _ (fun s => let '(a, b, c, d) := s in Cmod (dC (CNeg (num13 cvv a b c d))) ^ 2) _ (4 * e * e * e * e / d / d)).
    - match goal with |- @eq _ ?x ?y => change (@eq R x y) end. unfold Rdiv; ring.
    - intros [[[a b] c] d'] _. rewrite d_div, HS, over_real, d_neg, Cmod_opp, num13_den, d_real, Cmod_mult, Cmod_R, Rpow_mult_distr, pow2_abs, ee_den, two_den. unfold Rdiv; ring.
  Qed.
  Lemma eeee_same : dT eeee_main = dT eeee_alt.
  Proof.
    unfold eeee_main, eeee_alt.
    rewrite !t_div, !t_mul, !sumsq_den, !four_den, !t_int0, lit4_den, e_den, !Rplus_0_l. f_equal.
    rewrite (Rsum_scale _ (fun s => let '(a, b, c, d) := s in
      Cmod (dC (COp Sub (COp Div (CTC Mul (TNeg (TInt 2)) (num13 cvv a b c d)) denS) (COp Div (CTC Mul (TInt 2) (num12 cvv a b c d)) (denTU 2)))) ^ 2) _ (e * e * e * e)); [reflexivity|].
    intros [[[a b] c] d'] _. rewrite !d_sub, !d_div, !d_real, num13_den, num12_den, !ee_den, !two_den, t_neg, t_int2.
    rewrite (scaled (e * e) (Cminus (Cdiv (Cmult (RtoC (- 2)) (dC (num13 cprod a b c d'))) (dC denS)) (Cdiv (Cmult (RtoC 2) (dC (num12 cprod a b c d'))) (dC (denTU 2))))); [replace ((e * e) ^ 2) with (e * e * e * e) by ring; reflexivity|].
    rewrite !RtoC_mult. unfold Cdiv. ring.
  Qed.
  Lemma over2_den x d3 d4 : dC (denTU 2) = RtoC d3 -> dC (denTU 3) = RtoC d4 -> Cmod (dC (over2 x)) ^ 2 = Cmod (dC x) ^ 2 / d3 / d3 / d4 / d4.
  Proof. intros H3 H4. unfold over2. rewrite !d_div, H3, H4, !over_real. reflexivity. Qed.
  Lemma eeAA_same d3 d4 : dC (denTU 2) = RtoC d3 -> dC (denTU 3) = RtoC d4 -> dT eeAA_main = dT eeAA_alt.
  Proof.
    intros H3 H4. unfold eeAA_main, eeAA_alt, two2. cbn [flat_map app fold_left].
    rewrite !t_div, !t_mul, !t_re, !H3, !H4, !t_add, !t_sq, !sumsq_den, !t_int0, !lit4_den, !lit8_den, e_den, !Rplus_0_l. cbn [Rsum fst RtoC].
    rewrite !(over2_den _ d3 d4 H3 H4). unfold numPP, numMM, sumPM, sumMP, a34, s34.
    rewrite !d_mul, ?d_real, ?d_mul, ?d_add, ?d_mul, ?d_real, ?cvv_den, ?cvmv_den, !ee_den, !t_mul, !ee_den, !two_den, !me_den, !Cmod_mult, !Cmod_R.
    rewrite !Rpow_mult_distr, !pow2_abs. match goal with |- @eq _ ?x ?y => change (@eq R x y) end. unfold Rdiv. ring.
  Qed.
End Values.

(** ** An object on which set_momenta or amp2 with momenta is called *)
Lemma alt_state {num : Num} (junk : id -> nat -> T num) c o h q rs : In c sm_classes -> polar_total (num:=num) ->
  reached junk c o -> forallb no_setter h = true -> length q = 4 ->
  isOk (fst (callm junk c n_set_momenta (map GMom q) o)) = true -> forallb reading rs = true ->
  exists b pat b1 (rT : tatom -> T num), shape c = POk b /\ In pat all_pats /\ after c (dyn_mask c) b pat = POk (None, b1) /\
    (forall r, k_R (dyn_mask c) r = false -> rT (APw r) = pr_w (o_R o r)) /\
    REF true (fun r _ p => ret_rel (RTs rT (fun _ _ => c0)) (RCs rT (fun _ _ => c0)) r (fst p))
      (callm junk c n_amp2 [] (snd (orun junk c rs (snd (callm junk c n_set_momenta (map GMom q) o))))) (answer c pat n_amp2 b1) /\
    REF true (fun r _ p => ret_rel (RTs rT (fun _ _ => c0)) (RCs rT (fun _ _ => c0)) r (fst p))
      (callm junk c n_amp2_momenta (map GMom q) (snd (orun junk c h o))) (alt_term c b pat).
Proof.
  intros Hc HP HR Hh HL HOk Hrs. destruct (shape_c c Hc) as (b & EB & HM & HA).
  pose proof (reached_twin junk c b o Hc EB HM HR) as TW.
  set (o' := snd (orun junk c h o)).
  assert (TW' : twin (dyn_mask c) b o o').
  { apply (twin_like (dyn_mask c) b o o); [reflexivity|exact TW| |apply like_history; assumption].
    change o with (snd (orun junk c [] o)) at 2. apply like_history; [exact Hc|reflexivity]. }
  destruct TW' as (HS & HS' & o0 & vT & vR & HAg). destruct (HAg q) as (A & A').
  pose proof (returned_accepted c (dyn_mask c) b (takes_c c Hc) junk vT vR o o0 q HL A HOk) as HAc.
  destruct (given_momenta c (dyn_mask c) b (argless_list c) HP HA junk vT vR o o0 q HL HS A HAc) as (b1 & Eb & _ & HV).
  set (E := ext_of o0 q []) in *.
  exists b, (pat_of E), b1, (rT1 vT vR E).
  split; [exact EB|]. split; [apply all_pats_in|]. split; [exact Eb|].
  split; [intros r Hr; rewrite (ag_R _ _ _ _ _ _ A r Hr); reflexivity|].
  split; [apply HV, reading_reads; assumption|].
  pose proof (Qj_ok vT vR E (fun _ _ => c0) (pat_of E) HP HAc (pat_of_ok o0 q)) as HQ.
  pose proof (before_OR (dyn_mask c) b vT vR E (fun _ _ => c0) true (Qj (pat_of E)) o' (fun _ => eq_refl) HS' A') as HO.
  assert (HArg : Forall2 (Rarg (RTs (rT1 vT vR E) (fun _ _ => c0))) (map GMom q) smoms).
  { apply smoms_args; [exact HL|]. intros p Hp. cbn [E ext_of x_q]. apply nth_error_nth'. lia. }
  pose proof (method_ref true _ _ _ (sym_hom (rT1 vT vR E) (fun _ _ => c0)) (Qj (pat_of E)) HQ junk c n_amp2_momenta _ _ o' (jobj (dyn_mask c) b) HArg HO) as K.
  fold (alt_term c b (pat_of E)) in K. unfold REF in K |- *. destruct (alt_term c b (pat_of E)) as [|e|p]; auto.
  destruct (callm junk c n_amp2_momenta (map GMom q) o') as [[r'|e|u] o'']; tauto.
Qed.

(** The propagators of these classes have no width. *)
Definition narrow (c : cls) : bool :=
  negb (k_R (dyn_mask c) n_prop) && match shape c with POk b => match b_R b n_prop with Some pr => match pr_w pr with TInt 0 => true | _ => false end | None => false end | _ => false end.
Lemma narrows : forallb (fun x => narrow (fst x)) alt_classes = true.
Proof. vm_cast_no_check (eq_refl true). Qed.
Lemma reached_narrow {num : Num} (junk : id -> nat -> T num) c o : In c sm_classes -> narrow c = true -> reached junk c o ->
  pr_w (o_R o n_prop) = tZ 0.
Proof.
  intros Hc HN HR. unfold narrow in HN. apply andb_prop in HN as [_ HN]. destruct (shape_c c Hc) as (b & EB & _ & _). rewrite EB in HN.
  destruct (b_R b n_prop) as [pr|] eqn:Er; [|discriminate HN].
  induction HR as [params o EC|o m args r o' HR IH Hm EC Hs].
  - destruct (construct_shape junk c params o b EC EB) as (D & HO).
    destruct (or_R _ _ _ _ _ _ _ HO _ pr Er) as [_ E]. rewrite E. destruct (pr_w pr); try discriminate HN.
    destruct z; try discriminate HN. reflexivity.
  - rewrite <- IH, <- (widths_kept junk c [OCall m args] o n_prop Hc); [|cbn [forallb]; unfold not_set_v; rewrite Hm; reflexivity].
    rewrite orun_one, EC. reflexivity.
Qed.
Lemma alt_sm c ts : In (c, ts) alt_classes -> In c sm_classes.
Proof. intros [[= <- _]|[[= <- _]|[[= <- _]|[]]]]. all: unfold sm_classes; rewrite !in_app_iff; cbn; tauto. Qed.

(** both throw, or both return the same.  (Which of two operands of * is evaluated first is
    unspecified in C++, and with it which exception is thrown if both operands throw.) *)
Definition same_outcome {num : Num} (r r' : outcome (option (ret num))) : Prop :=
  match r, r' with Exn _, Exn _ => True | Ok x, Ok y => x = y | _, _ => False end.

(** C54.  For all parameters, histories and momenta that set_momenta accepts: amp2 of the
    momenta returns what set_momenta followed by amp2 returns; if one throws, so does the
    other.  The object the momenta are passed to may have any other history. *)
Theorem C54_same :
  forall c, In c [eemmQED; eeeeQED; eeAA] ->
  forall st eps (junk : id -> nat -> T (RN st eps)) (o : obj (RN st eps)), reached (num:=RN st eps) junk c o ->
  forall q1 q2 q3 q4 : vec4 R,
    let ms := [GMom (num:=RN st eps) q1; GMom (num:=RN st eps) q2; GMom (num:=RN st eps) q3; GMom (num:=RN st eps) q4] in
    let g := callm (num:=RN st eps) junk c n_set_momenta ms o in
    isOk (fst g) = true ->
  forall h rs, forallb no_setter h = true -> forallb reading rs = true ->
    same_outcome (num:=RN st eps)
      (fst (callm (num:=RN st eps) junk c n_amp2_momenta ms (snd (orun (num:=RN st eps) junk c h o))))
      (fst (callm (num:=RN st eps) junk c n_amp2 [] (snd (orun (num:=RN st eps) junk c rs (snd g))))).
Proof.
  intros c Hc' st eps junk o HR q1 q2 q3 q4 ms g HOk h rs Hh Hrs.
  assert (HX : exists ts, In (c, ts) alt_classes).
  { destruct Hc' as [<-|[<-|[<-|[]]]]; eexists; [left|right; left|right; right; left]; reflexivity. }
  destruct HX as ([main alt] & HX). pose proof (alt_sm c _ HX) as Hc.
  destruct (alt_state (num:=RN st eps) junk c o h [q1; q2; q3; q4] rs Hc (polar_real st eps) HR Hh eq_refl HOk Hrs)
    as (b & pat & b1 & rT & EB & HI & EA & HW & K1 & K2).
  change (map (GMom (num:=RN st eps)) [q1; q2; q3; q4]) with ms in K1, K2. fold g in K1.
  pose proof (proj1 (forallb_forall _ _) alt_checks _ HX) as K. cbn [fst snd] in K. unfold alt_check in K. rewrite EB in K.
  pose proof (proj1 (forallb_forall _ _) K pat HI) as KK. cbv beta in KK. clear K.
  pose proof (proj1 (forallb_forall _ _) narrows _ HX) as KN. cbn [fst] in KN.
  assert (W0 : rT (APw n_prop) = 0%R).
  { rewrite HW; [exact (reached_narrow junk c o Hc KN HR)|]. unfold narrow in KN. apply andb_prop in KN as [KN _]. apply negb_true_iff, KN. }
  unfold main_term in KK. rewrite EA in KK.
  destruct (fits c pat).
  - apply andb_prop in KK as [T1 T2]. unfold is_term in T1, T2.
    destruct (answer c pat n_amp2 b1) as [|e|[[[y|y]|] b2]]; try discriminate T1. destruct (alt_term c b pat) as [|e|[[[z|z]|] b3]]; try discriminate T2.
    apply eqT_eq in T1. apply eqT_eq in T2. subst y z. unfold REF in K1, K2.
    destruct (callm junk c n_amp2 [] _) as [[r1|e1|u1] o1]; try discriminate K1.
    destruct (callm junk c n_amp2_momenta ms _) as [[r2|e2|u2] o2]; try discriminate K2.
    cbn [fst snd] in K1, K2 |- *. unfold ret_rel in K1, K2. destruct r1 as [[y|y]|]; try contradiction. destruct r2 as [[z|z]|]; try contradiction.
    unfold RTs in K1, K2. cbn in K1, K2. cbn [same_outcome]. do 2 f_equal. etransitivity; [exact K2|]. symmetry. etransitivity; [exact K1|].
    assert (DEN : forall k, exists d, denC (num:=RN st eps) rT (fun _ _ => c0) (sden_of k) = RtoC d).
    { intros k. unfold sden_of. eexists. cbn [denC denT]. rewrite W0. apply C_ext; inR; cbn; [reflexivity|ring]. }
    destruct (DEN (fun mu => TOp Add (TAt (AMom 0 mu)) (TAt (AMom 1 mu)))) as (dS & DS). destruct (DEN (fun mu => TOp Sub (TAt (AMom 0 mu)) (TAt (AMom 2 mu)))) as (dT & DT).
    destruct (DEN (fun mu => TOp Sub (TAt (AMom 0 mu)) (TAt (AMom 3 mu)))) as (dU & DU).
    destruct HX as [HX|[HX|[HX|[]]]]; injection HX as _ <- <-;
      [exact (eemm_same st eps rT _ dS DS)|exact (eeee_same st eps rT _)|exact (eeAA_same st eps rT _ dT dU DT DU)].
  - destruct (answer c pat n_amp2 b1) as [|e|]; try discriminate KK. destruct (alt_term c b pat) as [|e'|]; try discriminate KK.
    unfold REF in K1, K2. destruct (callm junk c n_amp2 [] _) as [[r1|e1|u1] o1]; try contradiction; try discriminate K1.
    destruct (callm junk c n_amp2_momenta ms _) as [[r2|e2|u2] o2]; try contradiction; try discriminate K2. exact I.
Qed.
Print Assumptions C54_same.

(** The fourth class: SM/eAeh.cpp 164 declares the arrays s241 and a241 and never assigns
    them; std::complex is zero by default, so two of the four terms are lost.  Here with
    e = me = 1, mh = 2, v = 3 and momenta of 20 in the centre of mass frame: the two
    versions of amp2 differ by more than a thousandth. *)
Definition both_ways (c : cls) (params : list Q) (ms : list Z) (test : F80 -> F80 -> bool) : bool :=
  match fbuild c params, map fz ms with
  | (Ok _, o), [m1; m2; m3; m4] =>
      let q := fkin m1 m2 m3 m4 (fz 20) in let g := fmomenta c q o in
      match fst g, fvalue c n_amp2 (snd g), fst (callm junk0 c n_amp2_momenta (map GMom q) o) with
      | Ok None, Some x, Ok (Some (RtT y)) => test x y | _, _, _ => false end
  | _, _ => false end.
Lemma both_ways_ok c params ms test : both_ways c params ms test = true ->
  exists o q x y, fbuild c params = (Ok tt, o) /\ fst (fmomenta c q o) = Ok None /\
    fst (callm junk0 c n_amp2 [] (snd (fmomenta c q o))) = Ok (Some (RtT (num:=XN) x)) /\
    fst (callm junk0 c n_amp2_momenta (map GMom q) o) = Ok (Some (RtT (num:=XN) y)) /\ test x y = true.
Proof.
  unfold both_ways. intros H. destruct (fbuild c params) as [[[]|e|u] o]; try discriminate H.
  destruct (map fz ms) as [|m1 [|m2 [|m3 [|m4 [|]]]]]; try discriminate H. cbv zeta in H. revert H.
  generalize (fkin m1 m2 m3 m4 (fz 20)). intros q H. exists o, q. unfold fvalue in H.
  destruct (fst (fmomenta c q o)) as [[r|]|e|u]; try discriminate H.
  destruct (fst (callm junk0 c n_amp2 [] (snd (fmomenta c q o)))) as [[[x|x]|]|e|u]; try discriminate H.
  destruct (fst (callm junk0 c n_amp2_momenta (map GMom q) o)) as [[[y|y]|]|e|u]; try discriminate H.
  exists x, y. repeat split; assumption.
Qed.
Theorem C54_refuted :
  exists o q x y, fbuild eAeh [1; 1; 2; 3]%Q = (Ok tt, o) /\ fst (fmomenta eAeh q o) = Ok None /\
    fst (callm junk0 eAeh n_amp2 [] (snd (fmomenta eAeh q o))) = Ok (Some (RtT (num:=XN) x)) /\
    fst (callm junk0 eAeh n_amp2_momenta (map GMom q) o) = Ok (Some (RtT (num:=XN) y)) /\ far x y = true.
Proof. apply (both_ways_ok eAeh [1; 1; 2; 3]%Q [1; 0; 1; 2]%Z far). vm_cast_no_check (eq_refl true). Qed.
Print Assumptions C54_refuted.

(** For the other three, as a test, the two agree up to rounding. *)
Example C54_example : forallb (fun x => both_ways (fst (fst x)) (snd (fst x)) (snd x) (fun x y => finite_nonzero x && negb (far x y) && negb (far y x)))
  [(eemmQED, [1; 1; 2]%Q, [1; 1; 2; 2]%Z); (eeeeQED, [1; 1]%Q, [1; 1; 1; 1]%Z); (eeAA, [1; 1]%Q, [1; 1; 0; 0]%Z)] = true.
Proof. vm_cast_no_check (eq_refl true). Qed.

(** Together with C49: a new eemmQED object needs no set_momenta; amp2 of the momenta is the
    textbook formula. *)
Open Scope R_scope.
Theorem C54_textbook :
  forall st eps, 0 <= eps ->
  forall (junk : id -> nat -> T (RN st eps)) (e me mm : R) o, construct (num:=RN st eps) junk eemmQED [e; me; mm] = (Ok tt, o) -> me <> 0 -> mm <> 0 ->
  forall q1 q2 q3 q4 : vec4 R,
    on_shell me q1 -> on_shell me q2 -> on_shell mm q3 -> on_shell mm q4 ->
    0 <= v_0 q1 -> 0 <= v_0 q2 -> 0 <= v_0 q3 -> 0 <= v_0 q4 ->
    vadd q1 q2 = vadd q3 q4 ->
    let s := minksq (vadd q1 q2) in let t := minksq (vsub q1 q3) in let u := minksq (vsub q1 q4) in let S := me ^ 2 + mm ^ 2 in
    fst (callm (num:=RN st eps) junk eemmQED n_amp2_momenta
          [GMom (num:=RN st eps) q1; GMom (num:=RN st eps) q2; GMom (num:=RN st eps) q3; GMom (num:=RN st eps) q4] o) =
      Ok (Some (RtT (num:=RN st eps) (2 * e ^ 4 / s ^ 2 * ((t - S) ^ 2 + (u - S) ^ 2 + 2 * s * S)))).
Proof.
  intros st eps He junk e me mm o EC Nme Nmm q1 q2 q3 q4 S1 S2 S3 S4 E1 E2 E3 E4 HC s t u S.
  destruct (qed_new eemmQED st eps junk e me mm o (or_introl eq_refl) EC) as (H1 & H2 & H3).
  pose proof (reached_new (num:=RN st eps) junk eemmQED _ o EC) as HR.
  destruct (C49_textbook eemmQED (or_introl eq_refl) st eps He junk o HR e me mm H1 H2 H3 Nme Nmm
    q1 q2 q3 q4 S1 S2 S3 S4 E1 E2 E3 E4 HC [] eq_refl) as (K1 & _ & K2).
  pose proof (C54_same eemmQED (or_introl eq_refl) st eps junk o HR q1 q2 q3 q4 ltac:(cbv zeta; rewrite K1; reflexivity) [] [] eq_refl eq_refl) as K.
  cbv zeta in K. rewrite K2 in K. cbn [orun snd] in K.
  destruct (fst (callm (num:=RN st eps) junk eemmQED n_amp2_momenta _ o)) as [r|x|x]; try contradiction. cbn [same_outcome] in K. rewrite K. reflexivity.
Qed.
Print Assumptions C54_textbook.
(** the hypotheses of C54_same and C54_textbook at the reals *)
Example C54_real :
  exists o : obj (RN false 0), construct (num:=RN false 0) (fun _ _ => 0) eemmQED [1; 12; 5] = (Ok tt, o) /\
    reached (num:=RN false 0) (fun _ _ => 0) eemmQED o /\
    fst (callm (num:=RN false 0) (fun _ _ => 0) eemmQED n_amp2_momenta
      [GMom (num:=RN false 0) (V4 13 0 0 5); GMom (num:=RN false 0) (V4 13 0 0 (-5)); GMom (num:=RN false 0) (V4 13 0 0 12); GMom (num:=RN false 0) (V4 13 0 0 (-12))] o) =
    Ok (Some (RtT (num:=RN false 0) (2 / 676 ^ 2 * (218 ^ 2 + 458 ^ 2 + 2 * 676 * 169)))).
Proof.
  destruct (built true eemmQED) as [|e|b] eqn:EB; [pose proof qed_built as X; rewrite EB in X; discriminate X|pose proof qed_built as X; rewrite EB in X; discriminate X|].
  destruct (new_real 0 (fun _ _ => 0) eemmQED [1; 12; 5] b EB eq_refl) as (o & HR & EC & _). exists o. split; [exact EC|]. split; [exact HR|].
  assert (S5 : on_shell 12 (V4 13 0 0 5)) by (unfold on_shell, minksq; cbn; lra).
  assert (S5' : on_shell 12 (V4 13 0 0 (-5))) by (unfold on_shell, minksq; cbn; lra).
  assert (S12 : on_shell 5 (V4 13 0 0 12)) by (unfold on_shell, minksq; cbn; lra).
  assert (S12' : on_shell 5 (V4 13 0 0 (-12))) by (unfold on_shell, minksq; cbn; lra).
  assert (E13 : forall z, 0 <= v_0 (V4 13 0 0 z)) by (intros z; cbn; lra).
  assert (HC : vadd (V4 13 0 0 5) (V4 13 0 0 (-5)) = vadd (V4 13 0 0 12) (V4 13 0 0 (-12))) by (unfold vadd; cbn; f_equal; lra).
  pose proof (C54_textbook false 0 ltac:(lra) (fun _ _ => 0) 1 12 5 o EC ltac:(lra) ltac:(lra)
    _ _ _ _ S5 S5' S12 S12' (E13 5) (E13 (-5)) (E13 12) (E13 (-12)) HC) as K. cbn zeta in K |- *. rewrite K. do 3 f_equal.
  unfold minksq, vadd, vsub. cbn [v_0 v_1 v_2 v_3]. field.
Qed.

(** ** What amp2 with momenta leaves behind: C55

    It gives the particles the new momenta but neither empties the spinor products nor
    recomputes the denominator that amp() uses (SM/eemmQED.cpp 100-111). *)
Definition value_of (c : cls) (h : list (ocall XN)) (o : obj XN) : option F80 := fvalue c n_amp2 (snd (orun junk0 c h o)).
Definition setq (q : list (mom XN)) : ocall XN := OCall n_set_momenta (map GMom q).
Definition altq (q : list (mom XN)) : ocall XN := OCall n_amp2_momenta (map GMom q).
Definition readq : ocall XN := OCall n_amp2 [].
Definition stale (c : cls) (params : list Q) (m1 m2 m3 m4 : F80) : bool :=
  match fbuild c params with
  | (Ok _, o) =>
      let q := fkin m1 m2 m3 m4 (fz 20) in let q' := fkin m1 m2 m3 m4 (fz 30) in
      match value_of c [setq q] o, value_of c [setq q'] o, value_of c [setq q; altq q'] o, value_of c [setq q; readq; altq q'] o with
      | Some x, Some x', Some y, Some z => far y x && far y x' && far y z && negb (far z x)
      | _, _, _, _ => false end
  | _ => false end.
(** After set_momenta(q) and amp2(q') the value of amp2() is neither that at q nor that at q';
    and if amp2() was called in between, it is another. *)
Theorem C55_refuted :
  exists o q q' x x' y z, fbuild eemmQED [1; 1; 2]%Q = (Ok tt, o) /\
    value_of eemmQED [setq q] o = Some x /\ value_of eemmQED [setq q'] o = Some x' /\
    value_of eemmQED [setq q; altq q'] o = Some y /\ value_of eemmQED [setq q; readq; altq q'] o = Some z /\
    far y x = true /\ far y x' = true /\ far y z = true.
Proof.
  assert (H : stale eemmQED [1; 1; 2]%Q (fz 1) (fz 1) (fz 2) (fz 2) = true) by (vm_cast_no_check (eq_refl true)).
  unfold stale in H. destruct (fbuild eemmQED [1; 1; 2]%Q) as [[[]|e|u] o]; try discriminate H. cbv zeta in H. revert H.
  generalize (fkin (fz 1) (fz 1) (fz 2) (fz 2) (fz 20)) (fkin (fz 1) (fz 1) (fz 2) (fz 2) (fz 30)). intros q q' H. exists o, q, q'.
  destruct (value_of eemmQED [setq q] o) as [x|]; [|discriminate H]. destruct (value_of eemmQED [setq q'] o) as [x'|]; [|discriminate H].
  destruct (value_of eemmQED [setq q; altq q'] o) as [y|]; [|discriminate H]. destruct (value_of eemmQED [setq q; readq; altq q'] o) as [z|]; [|discriminate H].
  apply andb_prop in H as [H _]. apply andb_prop in H as [H H3]. apply andb_prop in H as [H1 H2].
  exists x, x', y, z. repeat split; assumption.
Qed.
Print Assumptions C55_refuted.

(** What does hold: the next set_momenta repairs the object, whatever momenta amp2 was given
    and whether it returned or threw. *)
Theorem C55_repaired_partial :
  forall c, In c [eemmQED; eeeeQED; eeAA; eAeh] ->
  forall (num : Num), polar_total (num:=num) ->
  forall (junk : id -> nat -> T num) (params : list (T num)) (o : obj num), construct junk c params = (Ok tt, o) ->
  forall h : list (ocall num), forallb no_setter h = true ->
  forall p1 p2 p3 p4 q1 q2 q3 q4 : mom num,
    let o1 := snd (orun junk c h o) in
    let o2 := snd (callm junk c n_amp2_momenta [GMom p1; GMom p2; GMom p3; GMom p4] o1) in
    let given o := callm junk c n_set_momenta [GMom q1; GMom q2; GMom q3; GMom q4] o in
    fst (given o2) = fst (given o1) /\
    (isOk (fst (given o1)) = true -> fst (callm junk c n_amp2 [] (snd (given o2))) = fst (callm junk c n_amp2 [] (snd (given o1)))).
Proof.
  intros c Hc num HP junk params o EC h Hh p1 p2 p3 p4 q1 q2 q3 q4 o1 o2 given.
  assert (Hs : In c sm_classes) by (destruct Hc as [<-|[<-|[<-|[<-|[]]]]]; unfold sm_classes; rewrite !in_app_iff; cbn; tauto).
  set (k := OCall n_amp2_momenta [GMom p1; GMom p2; GMom p3; GMom p4]).
  assert (E2 : snd (orun junk c (h ++ [k]) o) = o2).
  { unfold o2, o1. revert o EC o1 o2. clear. intros o _ _ _. revert o. induction h as [|[m args] h IH]; intros o.
    - cbn [app]. unfold k. rewrite orun_one. reflexivity.
    - cbn [app orun]. destruct (ostep junk c (OCall m args) o) as [r o']. specialize (IH o').
      destruct (orun junk c (h ++ [k]) o') as [? x], (orun junk c h o') as [? y]. exact IH. }
  assert (Hk : forallb no_setter (h ++ [k]) = true) by (rewrite forallb_app, Hh; reflexivity).
  destruct (C43_last_momenta c Hs num HP junk params o EC (h ++ [k]) h Hk Hh q1 q2 q3 q4) as [G1 G2]. rewrite E2 in G1, G2.
  split; [exact G1|]. intros HOk. refine (G2 _ [] [] eq_refl eq_refl n_amp2 _); [rewrite G1; exact HOk|].
  destruct Hc as [<-|[<-|[<-|[<-|[]]]]]; eexists; split; reflexivity.
Qed.
Print Assumptions C55_repaired_partial.
(** the witness of the refutation, repaired *)
Example C55_example :
  let q := fkin (fz 1) (fz 1) (fz 2) (fz 2) (fz 20) in let q' := fkin (fz 1) (fz 1) (fz 2) (fz 2) (fz 30) in
  match fbuild eemmQED [1; 1; 2]%Q with
  | (Ok _, o) => match value_of eemmQED [setq q] o, value_of eemmQED [setq q; altq q'; setq q] o with
                 | Some x, Some y => finite_nonzero x && negb (far x y) && isOk (fst (callm junk0 eemmQED n_amp2_momenta (map GMom q') o)) | _, _ => false end
  | _ => false end = true.
Proof. vm_cast_no_check (eq_refl true). Qed.
