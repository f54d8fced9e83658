(** * e e > mu mu in QED: C49

    amp2 of eemmQED, and of the example in user-dir, equals the textbook formula. *)
From Coq Require Import Reals QArith Qreals String Ascii Lra Lia.
From Coquelicot Require Import Complex.
From Verif Require Import Base Scalar RealNum Linear Integers Particle Sproduct Propagator Process
  ParticleProofs SpecSpinor ParticleReal SpinorReal Ready ParticleClaims SpecSproduct SpecChain ChainReal Lorentz
  WorldProofs Lang LangFrame Pure PureProofs ReadOnly Sym SymEq SMNames SMRun SMTwins SMMasses SMAll SMChecks SMState PropsClasses PropsConstruct
  SMAmp2 SpinColour SMInv PropsAmp2 PropsGluons Poly Covariant CovReal PropsLorentz.
Close Scope Q_scope.
Close Scope R_scope.
Open Scope nat_scope.

(** ** The algebra: four spinors |i>^-, |i>^+ and the conjugates *)
Record legw := Leg { u0 : C; u1 : C; v0 : C; v1 : C }.
Section Algebra.
  Open Scope C_scope.
  Definition r0 (s : bool) (l : legw) := if s then v0 l else u0 l.
  Definition r1 (s : bool) (l : legw) := if s then v1 l else u1 l.
  Definition ang s (l : legw) t (m : legw) := r1 s l * r0 t m - r0 s l * r1 t m.
  Definition q0 (s : bool) (l : legw) := if s then u0 l else - v0 l.
  Definition q1 (s : bool) (l : legw) := if s then u1 l else - v1 l.
  Definition sqr s (l : legw) t (m : legw) := q0 s l * q1 t m - q1 s l * q0 t m.
  (** <13>[24] + <14>[23] + [13]<24> + [14]<23> *)
  Definition qed (x1 x2 x3 x4 y1 y2 y3 y4 : legw) s1 s2 s3 s4 :=
    ang s1 x1 s3 x3 * sqr s2 y2 s4 y4 + ang s1 x1 s4 x4 * sqr s2 y2 s3 y3 + sqr s1 y1 s3 y3 * ang s2 x2 s4 x4 + sqr s1 y1 s4 y4 * ang s2 x2 s3 x3.
  Definition both (f : bool -> C) := f false + f true.
  Definition P00 (a b : legw) := u0 a * u0 b + v0 a * v0 b.
  Definition P01 (a b : legw) := u0 a * u1 b + v0 a * v1 b.
  Definition P10 (a b : legw) := u1 a * u0 b + v1 a * v0 b.
  Definition P11 (a b : legw) := u1 a * u1 b + v1 a * v1 b.
  Definition dott a b c d := P00 a b * P11 c d + P11 a b * P00 c d - P01 a b * P10 c d - P10 a b * P01 c d.
  Definition dt a := u0 a * v1 a - u1 a * v0 a.
  Lemma qed_sum a1 a2 a3 a4 b1 b2 b3 b4 :
    both (fun s1 => both (fun s2 => both (fun s3 => both (fun s4 =>
      qed a1 a2 a3 a4 b1 b2 b3 b4 s1 s2 s3 s4 * qed b1 b2 b3 b4 a1 a2 a3 a4 s1 s2 s3 s4)))) =
    (RtoC 1 + RtoC 1) * (dott a1 b1 a3 b3 * dott a2 b2 a4 b4 + dott a1 b1 a4 b4 * dott a2 b2 a3 b3
      + dott a1 b1 a2 b2 * (dt a3 * dt b4 + dt b3 * dt a4) + dott a3 b3 a4 b4 * (dt a1 * dt b2 + dt b1 * dt a2)
      + (RtoC 1 + RtoC 1) * (dt a1 * dt a3 * dt b2 * dt b4 + dt b1 * dt b3 * dt a2 * dt a4 + dt a1 * dt a4 * dt b2 * dt b3 + dt b1 * dt b4 * dt a2 * dt a3)).
  Proof.
    unfold both, qed, ang, sqr, dott, dt, P00, P01, P10, P11, r0, r1, q0, q1.
    destruct a1, a2, a3, a4, b1, b2, b3, b4. cbn [u0 u1 v0 v1]. ring.
  Qed.
  Definition conjl (a : legw) : legw := Leg (Cconj (u0 a)) (Cconj (u1 a)) (Cconj (v0 a)) (Cconj (v1 a)).
  Lemma qed_conj a1 a2 a3 a4 s1 s2 s3 s4 :
    Cconj (qed a1 a2 a3 a4 (conjl a1) (conjl a2) (conjl a3) (conjl a4) s1 s2 s3 s4) = qed (conjl a1) (conjl a2) (conjl a3) (conjl a4) a1 a2 a3 a4 s1 s2 s3 s4.
  Proof.
    unfold qed, ang, sqr. assert (J : forall z, Cconj (Cconj z) = z) by (intros []; unfold Cconj; cbn; f_equal; apply Ropp_involutive).
    assert (N : forall z, Cconj (- z) = - Cconj z) by (intros []; unfold Cconj, Copp; cbn; f_equal).
    assert (A : forall z w, Cconj (z + w) = Cconj z + Cconj w) by (intros [] []; unfold Cconj, Cplus; cbn; f_equal; ring).
    assert (S : forall z w, Cconj (z - w) = Cconj z - Cconj w) by (intros [] []; unfold Cconj, Cminus, Cplus, Copp; cbn; f_equal; ring).
    assert (M : forall z w, Cconj (z * w) = Cconj z * Cconj w) by (intros [] []; unfold Cconj, Cmult; cbn; f_equal; ring).
    rewrite !A, !M, !S, !M.
    destruct s1, s2, s3, s4; unfold r0, r1, q0, q1, conjl; cbn [u0 u1 v0 v1]; rewrite ?N, ?J; reflexivity.
  Qed.
End Algebra.

(** ** The legs *)
Open Scope R_scope.
Section Legs.
  Variables (st : bool) (eps : R).
  Notation num := (RN st eps).
  Notation spinor q k := (rspinor st eps q k).
  Definition legv (q : vec4 R) : legw :=
    let u := spinor q (RAngle, UpM1) in let v := spinor q (RAngle, UpP1) in Leg (cv0 u) (cv1 u) (cv0 v) (cv1 v).
  Lemma leafc_qed (q : nat -> vec4 R) angle a L b R :
    leafc st eps q angle (Some a) L [] (Some b) R =
    if angle then ang a (legv (q L)) b (legv (q R)) else sqr a (conjl (legv (q L))) b (conjl (legv (q R))).
  Proof.
    unfold leafc, zch, ends_of. cbn [map rmats apm fold_right length Nat.even fst snd].
    destruct angle; cbn [Bool.eqb].
    - destruct a, b; unfold spin_of, spv, kind_of, ang, legv, r0, r1; cbn; ring.
    - assert (E1 : forall p, spinor p (LSquare, UpP1) = cv_conj (spinor p (RAngle, UpM1))) by (intros p; rewrite conj_upm1, lower_m1; reflexivity).
      assert (E2 : forall p, spinor p (LSquare, UpM1) = cv_opp (cv_conj (spinor p (RAngle, UpP1)))) by (intros p; rewrite conj_upp1, lower_p1; to_reals; ring).
      destruct a, b; unfold spin_of, spv; cbn [kind_of Z.eqb]; rewrite ?E1, ?E2; unfold sqr, legv, conjl, q0, q1; cbn; ring.
  Qed.
  Lemma leg_mom m q : on_shell m q -> 0 <= v_0 q ->
    let a := legv q in
    P00 a (conjl a) = RtoC (v_0 q + v_3 q) /\ P11 a (conjl a) = RtoC (v_0 q - v_3 q) /\
    P01 a (conjl a) = (v_1 q, - v_2 q) /\ P10 a (conjl a) = (v_1 q, v_2 q) /\
    dt a = RtoC (Rabs m) /\ dt (conjl a) = RtoC (Rabs m).
  Proof.
    intros H H0 a. pose proof (massive_outer st eps m q H H0) as E. pose proof (massive_angle st eps m q H H0) as F. rewrite langle_J in F.
    replace (spinor q (LSquare, UpP1)) with (cv_conj (spinor q (RAngle, UpM1))) in E by (rewrite conj_upm1, lower_m1; reflexivity).
    replace (spinor q (LSquare, UpM1)) with (cv_opp (cv_conj (spinor q (RAngle, UpP1)))) in E by (rewrite conj_upp1, lower_p1; to_reals; ring).
    assert (D : dt a = RtoC (Rabs m)).
    { rewrite <- F. unfold a, dt, legv. to_reals; ring. }
    assert (D' : dt (conjl a) = Cconj (dt a)).
    { unfold dt, conjl. cbn [u0 u1 v0 v1]. generalize (u0 a) (u1 a) (v0 a) (v1 a). intros [] [] [] []. unfold Cconj, Cminus, Cmult, Cplus, Copp. cbn. f_equal; ring. }
    rewrite D', D. clear D D' F.
    pose proof (f_equal (fun M : cmatrix num => (m00 M : C)) E) as E00. pose proof (f_equal (fun M : cmatrix num => (m01 M : C)) E) as E01.
    pose proof (f_equal (fun M : cmatrix num => (m10 M : C)) E) as E10. pose proof (f_equal (fun M : cmatrix num => (m11 M : C)) E) as E11. clear E.
    unfold a, P00, P01, P10, P11, legv, conjl. cbn [u0 u1 v0 v1]. clear a.
    set (u := spinor q (RAngle, UpM1)) in *. set (v := spinor q (RAngle, UpP1)) in *. clearbody u v. destruct u as [u0 u1], v as [v0 v1].
    cbn in E00, E01, E10, E11 |- *.
    repeat split.
    - etransitivity; [|etransitivity; [exact E00|]]; [|reflexivity]. destruct u0, v0. unfold Cplus, Cmult, Copp, Cconj; cbn; f_equal; ring.
    - etransitivity; [|etransitivity; [exact E11|]]; [|reflexivity]. destruct u1, v1. unfold Cplus, Cmult, Copp, Cconj; cbn; f_equal; ring.
    - etransitivity; [|etransitivity; [exact E01|]]; [|reflexivity]. destruct u0, v0, u1, v1. unfold Cplus, Cmult, Copp, Cconj; cbn; f_equal; ring.
    - etransitivity; [|etransitivity; [exact E10|]]; [|reflexivity]. destruct u0, v0, u1, v1. unfold Cplus, Cmult, Copp, Cconj; cbn; f_equal; ring.
    - unfold Cconj, RtoC. cbn. f_equal. apply Ropp_0.
  Qed.
  Lemma leg_dot m q m' q' : on_shell m q -> 0 <= v_0 q -> on_shell m' q' -> 0 <= v_0 q' ->
    dott (legv q) (conjl (legv q)) (legv q') (conjl (legv q')) = RtoC (2 * minkdot q q').
  Proof.
    intros H1 H2 H3 H4. destruct (leg_mom m q H1 H2) as (A1 & A2 & A3 & A4 & _). destruct (leg_mom m' q' H3 H4) as (B1 & B2 & B3 & B4 & _).
    unfold dott. rewrite A1, A2, A3, A4, B1, B2, B3, B4. unfold minkdot, Cplus, Cminus, Copp, Cmult, RtoC. cbn [fst snd]. unfold Cplus. cbn [fst snd]. apply (f_equal2 pair); ring.
  Qed.

  Definition amp_legs (q1 q2 q3 q4 : vec4 R) : bool -> bool -> bool -> bool -> C :=
    qed (legv q1) (legv q2) (legv q3) (legv q4) (conjl (legv q1)) (conjl (legv q2)) (conjl (legv q3)) (conjl (legv q4)).
  Definition rboth (f : bool -> R) := f false + f true.
  Lemma legs_sum me mm q1 q2 q3 q4 : on_shell me q1 -> on_shell me q2 -> on_shell mm q3 -> on_shell mm q4 ->
    0 <= v_0 q1 -> 0 <= v_0 q2 -> 0 <= v_0 q3 -> 0 <= v_0 q4 ->
    rboth (fun s1 => rboth (fun s2 => rboth (fun s3 => rboth (fun s4 => Cmod (amp_legs q1 q2 q3 q4 s1 s2 s3 s4) ^ 2)))) =
    8 * (minkdot q1 q3 * minkdot q2 q4 + minkdot q1 q4 * minkdot q2 q3 + mm * mm * minkdot q1 q2 + me * me * minkdot q3 q4 + 2 * (me * me) * (mm * mm)).
  Proof.
    intros S1 S2 S3 S4 E1 E2 E3 E4.
    assert (K : forall s1 s2 s3 s4, RtoC (Cmod (amp_legs q1 q2 q3 q4 s1 s2 s3 s4) ^ 2) =
      Cmult (amp_legs q1 q2 q3 q4 s1 s2 s3 s4) (qed (conjl (legv q1)) (conjl (legv q2)) (conjl (legv q3)) (conjl (legv q4)) (legv q1) (legv q2) (legv q3) (legv q4) s1 s2 s3 s4)).
    { intros. rewrite <- qed_conj. fold (amp_legs q1 q2 q3 q4). generalize (amp_legs q1 q2 q3 q4 s1 s2 s3 s4). intros z. rewrite Cmod2. destruct z.
      unfold RtoC, Cmult, Cconj. cbn. f_equal; ring. }
    assert (B : forall f g, (forall s, RtoC (f s) = g s) -> RtoC (rboth f) = both g).
    { intros f g Hfg. unfold rboth, both. rewrite RtoC_plus, !Hfg. reflexivity. }
    match goal with |- ?l = ?r => enough (KK : RtoC l = RtoC r) by (apply (f_equal fst) in KK; exact KK) end.
    etransitivity; [apply B; intros s1; apply B; intros s2; apply B; intros s3; apply B; intros s4; apply K|].
    unfold amp_legs. etransitivity; [apply qed_sum|].
    destruct (leg_mom _ _ S1 E1) as (_ & _ & _ & _ & D1 & D1'). destruct (leg_mom _ _ S2 E2) as (_ & _ & _ & _ & D2 & D2').
    destruct (leg_mom _ _ S3 E3) as (_ & _ & _ & _ & D3 & D3'). destruct (leg_mom _ _ S4 E4) as (_ & _ & _ & _ & D4 & D4').
    rewrite (leg_dot _ _ _ _ S1 E1 S3 E3), (leg_dot _ _ _ _ S2 E2 S4 E4), (leg_dot _ _ _ _ S1 E1 S4 E4), (leg_dot _ _ _ _ S2 E2 S3 E3),
      (leg_dot _ _ _ _ S1 E1 S2 E2), (leg_dot _ _ _ _ S3 E3 S4 E4), D1, D2, D3, D4, D1', D2', D3', D4'.
    rewrite <- ?RtoC_mult, <- ?RtoC_plus, <- ?RtoC_mult, <- ?RtoC_plus, <- ?RtoC_mult, <- ?RtoC_plus, <- ?RtoC_mult. f_equal.
    assert (A : Rabs me * Rabs me = me * me) by (rewrite <- Rabs_mult; apply Rabs_right; nra).
    assert (A' : Rabs mm * Rabs mm = mm * mm) by (rewrite <- Rabs_mult; apply Rabs_right; nra).
    rewrite <- A, <- A'. ring.
  Qed.
End Legs.

(** ** The classes *)
(** SM/eemmQED.cpp and the example user-dir/eemm.cpp *)
Definition qed_classes : list cls := [eemmQED; eemmQED2].
Definition dleg (p : nat) : sdat := SDat (TAt (AMass p)) (TAt (AMom p 0)) (TAt (AMom p 1)) (TAt (AMom p 2)) (TAt (AMom p 3)).
Definition sprodt (angle : bool) (p : nat) (s : bool) (p' : nat) (s' : bool) : sC :=
  CProd angle (Some (if s then 1 else -1)%Z) (dleg p) SNil (Some (if s' then 1 else -1)%Z) (dleg p').
Definition sprop : sC :=
  let k mu := TOp Add (TAt (AMom 0 mu)) (TAt (AMom 1 mu)) in let sq x := TOp Mul x x in
  CMk (TOp Sub (TOp Sub (TOp Sub (TOp Sub (sq (k 0)) (sq (k 1))) (sq (k 2))) (sq (k 3))) (sq (TAt (APm n_prop))))%nat
      (TOp Mul (TNeg (TAt (APm n_prop))) (TAt (APw n_prop))).
Definition qed_term (two : sT) (s1 s2 s3 s4 : bool) : sC :=
  let e := TAt (AMem n_e) in
  COp Div (CTC Mul (TOp Mul (TOp Mul two e) e)
    (COp Add (COp Add (COp Add (COp Mul (sprodt true 0 s1 2 s3) (sprodt false 1 s2 3 s4))
                               (COp Mul (sprodt true 0 s1 3 s4) (sprodt false 1 s2 2 s3)))
                      (COp Mul (sprodt false 0 s1 2 s3) (sprodt true 1 s2 3 s4)))
             (COp Mul (sprodt false 0 s1 3 s4) (sprodt true 1 s2 2 s3)))) sprop.
(** -2 *)
Definition twos : list sT := [TofD (DNeg (DLit 2)); TNeg (TofD (DLit 2))].
Definition spins4 : list (bool * bool * bool * bool) :=
  flat_map (fun a => flat_map (fun b => flat_map (fun c => map (fun d => (a, b, c, d)) [false; true]) [false; true]) [false; true]) [false; true].
Definition zb (s : bool) : Z := if s then 1%Z else (-1)%Z.
Definition zs4 (s : bool * bool * bool * bool) : list Z := let '(a, b, c, d) := s in [zb a; zb b; zb c; zb d].
Definition term_check (c : cls) (pat : nat -> bool) (b1 : pobj snum) (two : sT) : bool :=
  forallb (fun s => match pinner (Qj pat) c b1 n_amp (zs4 s) with POk y => eqC y (let '(a, b, c, d) := s in qed_term two a b c d) | _ => false end) spins4.
Definition qed_check (c : cls) : bool :=
  match shape c with
  | POk b =>
      known (dyn_mask c) b n_e && agree c (QProp n_prop) QZero && agree c (QLeg 1) (QLeg 0) && agree c (QLeg 3) (QLeg 2) &&
      forallb (fun pat => match after c (dyn_mask c) b pat with
        | POk (None, b1) => if fits c pat then existsb (term_check c pat b1) twos
                            else match summed c pat n_amp2 b1 with PExn _ => true | _ => false end
        | _ => false end) all_pats
  | _ => false
  end.
Lemma qed_checks : forallb qed_check qed_classes = true.
Proof. vm_cast_no_check (eq_refl true). Qed.
Lemma qed_info : forallb (fun c => negb (special c) && Nat.eqb (average c []) 4 && zss_eqb (configs c []) (map zs4 spins4) &&
  forallb (fun p => match leg c p with Some false => true | _ => false end) [0; 1; 2; 3]%nat &&
  match structures c with [(m, Tsinglet)] => Pos.eqb m n_amp | _ => false end && match colourings c with [_] => true | _ => false end) qed_classes = true.
Proof. vm_cast_no_check (eq_refl true). Qed.

Section Value.
  Variables (st : bool) (eps : R).
  Notation num := (RN st eps).
  Variable rT : tatom -> R.
  Variable rC : id -> list Z -> C.
  Variable q : nat -> vec4 R.
  Hypothesis HM : forall p mu, (p < 4)%nat -> rT (AMom p mu) = comp (num:=num) (q p) mu.
  Hypothesis HP : forall p, (p < 4)%nat -> rT (AMass p) <> 0.
  Hypothesis HA : forall p, (p < 4)%nat -> fst (particle_new (num:=num) (fun _ => 0) (q p) (rT (AMass p))) = Ok tt.
  Lemma sprodt_val angle p s p' s' : (p < 4)%nat -> (p' < 4)%nat ->
    denC (num:=num) rT rC (sprodt angle p s p' s') =
    if angle then ang s (legv st eps (q p)) s' (legv st eps (q p')) else sqr s (conjl (legv st eps (q p))) s' (conjl (legv st eps (q p'))).
  Proof.
    intros Hp Hp'. rewrite <- leafc_qed. symmetry.
    assert (HPt : forall p, (p < 4)%nat -> false = Reqb (rT (AMass p)) 0) by (intros k Hk; symmetry; apply Reqb_false; exact (HP k Hk)).
    assert (L : forall k, (k < 4)%nat -> leg_of (dleg k) = Some k).
    { intros [|[|[|[|k]]]] Hk; try reflexivity; lia. }
    pose proof (ev_den st eps rT rC q (fun _ => false) HM HPt HA [] (fun _ _ _ _ _ _ => []) (sprodt angle p s p' s')) as K.
    unfold sprodt in *. cbn [norm ev] in K. rewrite (L p Hp), (L p' Hp') in K. cbn [legs_in suits negb] in K.
    destruct s, s'; cbn [lab] in K; exact (K _ eq_refl).
  Qed.
  Hypothesis HPm : rT (APm n_prop) = 0.
  Lemma qed_val two a b c d : In two twos ->
    denC (num:=num) rT rC (qed_term two a b c d) =
    Cdiv (Cmult (RtoC (-2 * rT (AMem n_e) * rT (AMem n_e))) (amp_legs st eps (q 0%nat) (q 1%nat) (q 2%nat) (q 3%nat) a b c d))
         (RtoC (minksq (vadd (q 0%nat) (q 1%nat)))).
  Proof.
    intros Htwo.
    assert (E2 : denT (num:=num) rT rC two = -2).
    { cbn in Htwo. destruct Htwo as [<-|[<-|[]]]; cbn; lra. }
    assert (ES : denC (num:=num) rT rC sprop = RtoC (minksq (vadd (q 0%nat) (q 1%nat)))).
    { unfold sprop. cbn [denC denT]. rewrite !HM, HPm by lia. apply C_ext; inR; unfold minksq, vadd; cbn; ring. }
    pose proof (fun angle p s p' s' Hp Hp' => sprodt_val angle p s p' s' Hp Hp') as PV.
    change (denC (num:=num) rT rC (qed_term two a b c d)) with
      (Cdiv (Cmult (RtoC (denT (num:=num) rT rC two * rT (AMem n_e) * rT (AMem n_e)))
        (Cplus (Cplus (Cplus (Cmult (denC (num:=num) rT rC (sprodt true 0 a 2 c)) (denC (num:=num) rT rC (sprodt false 1 b 3 d)))
                             (Cmult (denC (num:=num) rT rC (sprodt true 0 a 3 d)) (denC (num:=num) rT rC (sprodt false 1 b 2 c))))
                      (Cmult (denC (num:=num) rT rC (sprodt false 0 a 2 c)) (denC (num:=num) rT rC (sprodt true 1 b 3 d))))
               (Cmult (denC (num:=num) rT rC (sprodt false 0 a 3 d)) (denC (num:=num) rT rC (sprodt true 1 b 2 c)))))
        (denC (num:=num) rT rC sprop)).
    rewrite ES, E2, !PV by lia. reflexivity.
  Qed.
End Value.

(** ** Kinematics *)
Section Kinematics.
  Open Scope R_scope.
  Lemma conserved_dots (q1 q2 q3 q4 : vec4 R) me mm : on_shell me q1 -> on_shell me q2 -> on_shell mm q3 -> on_shell mm q4 ->
    vadd q1 q2 = vadd q3 q4 ->
    let s := minksq (vadd q1 q2) in let t := minksq (vsub q1 q3) in let u := minksq (vsub q1 q4) in let S := me * me + mm * mm in
    8 * (minkdot q1 q3 * minkdot q2 q4 + minkdot q1 q4 * minkdot q2 q3 + mm * mm * minkdot q1 q2 + me * me * minkdot q3 q4 + 2 * (me * me) * (mm * mm)) =
    2 * ((t - S) ^ 2 + (u - S) ^ 2 + 2 * s * S).
  Proof.
    unfold on_shell. intros S1 S2 S3 S4 HC. cbn zeta.
    assert (SB : forall p q, minksq (vsub p q) = minksq p + minksq q - 2 * minkdot p q) by (intros; unfold minksq, minkdot, vsub; cbn; ring).
    assert (SY : forall p q, minkdot p q = minkdot q p) by (intros; unfold minkdot; ring).
    assert (V1 : vsub q1 q3 = vsub q4 q2 /\ vsub q1 q4 = vsub q3 q2).
    { unfold vadd in HC. injection HC as H1 H2 H3 H4. unfold vsub. split; f_equal; lra. }
    destruct V1 as [V1 V2].
    assert (D24 : minkdot q2 q4 = minkdot q1 q3).
    { pose proof (SB q1 q3) as B1. pose proof (SB q4 q2) as B2. rewrite V1 in B1. rewrite (SY q4 q2) in B2. lra. }
    assert (D23 : minkdot q2 q3 = minkdot q1 q4).
    { pose proof (SB q1 q4) as B1. pose proof (SB q3 q2) as B2. rewrite V2 in B1. rewrite (SY q3 q2) in B2. lra. }
    assert (Es : minksq (vadd q1 q2) = 2 * (me * me) + 2 * minkdot q1 q2).
    { rewrite <- S1 at 1. replace (2 * minksq q1) with (minksq q1 + minksq q2) by (rewrite S1, S2; ring). unfold minksq, minkdot, vadd. cbn. ring. }
    assert (Es' : minksq (vadd q1 q2) = 2 * (mm * mm) + 2 * minkdot q3 q4).
    { rewrite HC, <- S3 at 1. replace (2 * minksq q3) with (minksq q3 + minksq q4) by (rewrite S3, S4; ring). unfold minksq, minkdot, vadd. cbn. ring. }
    assert (Et : minksq (vsub q1 q3) = me * me + mm * mm - 2 * minkdot q1 q3).
    { rewrite <- S1, <- S3. unfold minksq, minkdot, vsub. cbn. ring. }
    assert (Eu : minksq (vsub q1 q4) = me * me + mm * mm - 2 * minkdot q1 q4).
    { rewrite <- S1, <- S4. unfold minksq, minkdot, vsub. cbn. ring. }
    rewrite D24, D23, Et, Eu.
    replace (minkdot q1 q2) with ((minksq (vadd q1 q2) - 2 * (me * me)) / 2) by lra.
    replace (minkdot q3 q4) with ((minksq (vadd q1 q2) - 2 * (mm * mm)) / 2) by lra. field.
  Qed.
  Lemma s_positive (q1 q2 : vec4 R) m : on_shell m q1 -> on_shell m q2 -> 0 <= v_0 q1 -> 0 <= v_0 q2 -> 4 * (m * m) <= minksq (vadd q1 q2).
  Proof.
    unfold on_shell, minksq, minkdot, vadd. destruct q1 as [a0 a1 a2 a3], q2 as [b0 b1 b2 b3]. cbn. intros S1 S2 E1 E2.
    assert (K : m * m + (a1 * b1 + a2 * b2 + a3 * b3) <= a0 * b0).
    { apply Rsqr_incr_0_var; [|apply Rmult_le_pos; assumption]. unfold Rsqr.
      replace (a0 * b0 * (a0 * b0)) with ((m * m + (a1 * a1 + a2 * a2 + a3 * a3)) * (m * m + (b1 * b1 + b2 * b2 + b3 * b3))).
      2: { replace (m * m + (a1 * a1 + a2 * a2 + a3 * a3)) with (a0 * a0) by lra. replace (m * m + (b1 * b1 + b2 * b2 + b3 * b3)) with (b0 * b0) by lra. ring. }
      match goal with |- ?x <= ?y => enough (0 <= y - x) by lra end.
      match goal with |- 0 <= ?d => replace d with (m * m * ((a1 - b1) * (a1 - b1) + (a2 - b2) * (a2 - b2) + (a3 - b3) * (a3 - b3))
        + ((a1 * b2 - a2 * b1) * (a1 * b2 - a2 * b1) + (a1 * b3 - a3 * b1) * (a1 * b3 - a3 * b1) + (a2 * b3 - a3 * b2) * (a2 * b3 - a3 * b2))) by ring end.
      repeat first [apply Rplus_le_le_0_compat|apply Rle_0_sqr|apply Rmult_le_pos; [apply Rle_0_sqr|]]. }
    nra.
  Qed.
End Kinematics.

(** ** The theorems *)
Lemma zss_eqb_eq a : forall b, zss_eqb a b = true -> a = b.
Proof.
  induction a as [|x a IH]; intros [|y b] H; cbn in H; try discriminate; [reflexivity|].
  destruct (zs_eqb x y) eqn:E; [|discriminate]. rewrite (zs_eqb_eq _ _ E), (IH _ H). reflexivity.
Qed.
Lemma qed_sm c : In c qed_classes -> In c sm_classes.
Proof. intros [<-|[<-|[]]]. all: unfold sm_classes; rewrite !in_app_iff; cbn; tauto. Qed.
Lemma held_mass st eps (o : obj (RN st eps)) p m : leg_mass (num:=RN st eps) o p m -> omass (num:=RN st eps) o p = m.
Proof.
  intros (P & P1 & P2). unfold omass. rewrite P1. unfold mass in P2. destruct (pa_m P) as [v|v]; cbn in P2 |- *; destruct st; congruence.
Qed.
Lemma mass_held st eps (o : obj (RN st eps)) p P m : nth_error (o_heap o) p = Some P -> pa_m P = Val m -> leg_mass (num:=RN st eps) o p m.
Proof. intros H1 H2. exists P. split; [exact H1|]. unfold mass. rewrite H2. reflexivity. Qed.

Lemma reached_leg st eps (junk : id -> nat -> T (RN st eps)) c o p : In c sm_classes -> reached (num:=RN st eps) junk c o -> (p < 4)%nat ->
  exists m, leg_mass (num:=RN st eps) o p m.
Proof.
  intros Hc HR Hp. destruct (shape_c c Hc) as (b & EB & HM & _). destruct (reached_twin junk c b o Hc EB HM HR) as (_ & _ & o0 & vT & vR & HAg).
  destruct (HAg []) as [A _]. destruct (ag_m _ _ _ _ _ _ A p Hp) as (P & P1 & P2). eexists. exact (mass_held st eps o p P _ P1 P2).
Qed.

Lemma qed_argless c : In c qed_classes -> argless c n_amp2.
Proof. intros [<-|[<-|[]]]. all: eexists; split; reflexivity. Qed.
(** The masses of the outer legs: two electrons, two muons. *)
Lemma qed_masses c st eps (junk : id -> nat -> T (RN st eps)) o me mm : In c qed_classes -> reached (num:=RN st eps) junk c o ->
  leg_mass (num:=RN st eps) o 0 me -> leg_mass (num:=RN st eps) o 2 mm ->
  leg_mass (num:=RN st eps) o 1 me /\ leg_mass (num:=RN st eps) o 3 mm.
Proof.
  intros Hc HR L0 L2. pose proof (proj1 (forallb_forall _ _) qed_checks c Hc) as K. unfold qed_check in K.
  destruct (shape c) as [|e|b]; try discriminate K.
  apply andb_prop in K as [K _]. apply andb_prop in K as [K A3]. apply andb_prop in K as [K A1].
  pose proof (agree_ok junk c o _ _ (qed_sm c Hc) A1 HR) as M1. pose proof (agree_ok junk c o _ _ (qed_sm c Hc) A3 HR) as M3. cbn [held] in M1, M3.
  rewrite (held_mass _ _ _ _ _ L0) in M1. rewrite (held_mass _ _ _ _ _ L2) in M3.
  destruct (reached_leg st eps junk c o 1 (qed_sm c Hc) HR ltac:(lia)) as (m1 & L1). destruct (reached_leg st eps junk c o 3 (qed_sm c Hc) HR ltac:(lia)) as (m3 & L3).
  rewrite (held_mass _ _ _ _ _ L1) in M1. rewrite (held_mass _ _ _ _ _ L3) in M3. subst. split; assumption.
Qed.

(** C49.  For all couplings and non-zero masses, all on-shell momenta of non-negative energy
    that are conserved, whatever happened before and whatever is read in between, amp2 is
    2 e^4 / s^2 ((t - S)^2 + (u - S)^2 + 2 s S) with S = me^2 + mm^2; s does not vanish. *)
Open Scope R_scope.
Theorem C49_textbook :
  forall c, In c qed_classes ->
  forall st eps, 0 <= eps ->
  forall (junk : id -> nat -> T (RN st eps)) (o : obj (RN st eps)), reached (num:=RN st eps) junk c o ->
  forall e me mm : R, o_T o n_e = Val (e : T (RN st eps)) ->
    leg_mass (num:=RN st eps) o 0 me -> leg_mass (num:=RN st eps) o 2 mm -> me <> 0 -> mm <> 0 ->
  forall q1 q2 q3 q4 : vec4 R,
    on_shell me q1 -> on_shell me q2 -> on_shell mm q3 -> on_shell mm q4 ->
    0 <= v_0 q1 -> 0 <= v_0 q2 -> 0 <= v_0 q3 -> 0 <= v_0 q4 ->
    vadd q1 q2 = vadd q3 q4 ->
    let g := callm (num:=RN st eps) junk c n_set_momenta [GMom (num:=RN st eps) q1; GMom (num:=RN st eps) q2; GMom (num:=RN st eps) q3; GMom (num:=RN st eps) q4] o in
  forall rs, forallb reading rs = true ->
    let s := minksq (vadd q1 q2) in let t := minksq (vsub q1 q3) in let u := minksq (vsub q1 q4) in let S := me ^ 2 + mm ^ 2 in
    fst g = Ok None /\ 0 < s /\
    fst (callm (num:=RN st eps) junk c n_amp2 [] (snd (orun (num:=RN st eps) junk c rs (snd g)))) =
      Ok (Some (RtT (num:=RN st eps) (2 * e ^ 4 / s ^ 2 * ((t - S) ^ 2 + (u - S) ^ 2 + 2 * s * S)))).
Proof.
  intros c Hq st eps He junk o HR e me mm HE L0 L2 Nme Nmm q1 q2 q3 q4 S1 S2 S3 S4 E1 E2 E3 E4 HC g rs Hrs s t u S.
  pose proof (qed_sm c Hq) as Hc. destruct (qed_masses c st eps junk o me mm Hq HR L0 L2) as [L1 L3].
  pose proof (proj1 (forallb_forall _ _) qed_info c Hq) as QI. cbv beta in QI.
  apply andb_prop in QI as [QI I6]. apply andb_prop in QI as [QI I5]. apply andb_prop in QI as [QI I4]. apply andb_prop in QI as [QI I3].
  apply andb_prop in QI as [I1 I2]. apply negb_true_iff in I1. apply Nat.eqb_eq in I2. apply zss_eqb_eq in I3.
  assert (LG : forall p, (p < 4)%nat -> leg c p = Some false).
  { intros p Hp. assert (HI : In p [0; 1; 2; 3]%nat) by (cbn; lia). pose proof (proj1 (forallb_forall _ _) I4 p HI) as X. cbv beta in X.
    destruct (leg c p) as [[]|]; [discriminate X|reflexivity|discriminate X]. }
  assert (HZ : forall p m, In (p, m) [(0%nat, me); (1%nat, me); (2%nat, mm); (3%nat, mm)] -> leg c p = Some true -> m = 0).
  { intros p m H. cbn in H. repeat destruct H as [[= <- <-]|H]; try contradiction; rewrite LG by lia; discriminate. }
  assert (HN : forall p m, In (p, m) [(0%nat, me); (1%nat, me); (2%nat, mm); (3%nat, mm)] -> leg c p = Some false -> m <> 0).
  { intros p m H. cbn in H. repeat destruct H as [[= <- <-]|H]; try contradiction; intros _; assumption. }
  destruct (C45_no_exception_on_shell c Hc st eps He junk o HR me me mm mm L0 L1 L2 L3 HZ HN q1 q2 q3 q4 S1 S2 S3 S4) as (HOk & _).
  fold g in HOk. split; [exact HOk|].
  assert (Hs : 0 < s) by (pose proof (s_positive q1 q2 me S1 S2 E1 E2) as X; change (4 * (me * me) <= s) in X; assert (0 < me * me) by nra; lra).
  split; [exact Hs|].
  destruct (C48_spin_sums_on_shell c Hc I1 (n_amp2, []) (or_introl eq_refl) (qed_argless c Hq) st eps He junk o HR me me mm mm L0 L1 L2 L3 HZ HN
    q1 q2 q3 q4 S1 S2 S3 S4 rs Hrs) as (M & HM & HV). cbn [fst snd] in HM, HV. fold g in HM, HV.
  set (o2 := snd (orun (num:=RN st eps) junk c rs (snd g))) in *.
  rewrite HV. do 3 f_equal. rewrite I2, I3.
  assert (HOk' : isOk (fst (callm (num:=RN st eps) junk c n_set_momenta (map (GMom (num:=RN st eps)) [q1; q2; q3; q4]) o)) = true)
    by (change (isOk (fst g) = true); rewrite HOk; reflexivity).
  destruct (pair_state (num:=RN st eps) junk c o [] [q1; q2; q3; q4] [q1; q2; q3; q4] rs rs Hc (polar_real st eps) HR eq_refl eq_refl eq_refl HOk' HOk' Hrs Hrs)
    as (b & pat & b1 & rT & rT' & EB & HI & EA & R1 & _ & _ & R4 & R5 & R8 & R9 & R6 & _ & HQ & _).
  change (snd (orun (num:=RN st eps) junk c rs (snd (callm (num:=RN st eps) junk c n_set_momenta (map (GMom (num:=RN st eps)) [q1; q2; q3; q4]) o)))) with o2 in HQ.
  destruct (HQ (amp_of junk c o2)) as [HQ1 HQ2]. clear HQ.
  assert (RM : forall p m, (p < 4)%nat -> leg_mass (num:=RN st eps) o p m -> rT (AMass p) = m).
  { intros p m Hp (P & P1 & P2). destruct (R4 p Hp) as (P' & E3' & E4'). rewrite P1 in E3'. injection E3' as <-.
    unfold mass in P2. rewrite E4' in P2. change (Ok (rT (AMass p) : T (RN st eps)) = Ok (m : T (RN st eps))) in P2. congruence. }
  assert (HP : forall p, (p < 4)%nat -> rT (AMass p) <> 0).
  { intros [|[|[|[|p]]]] Hp; [rewrite (RM _ me Hp L0)|rewrite (RM _ me Hp L1)|rewrite (RM _ mm Hp L2)|rewrite (RM _ mm Hp L3)|lia]; assumption. }
  pose proof (proj1 (forallb_forall _ _) qed_checks c Hq) as K. unfold qed_check in K. rewrite EB in K.
  apply andb_prop in K as [K KP]. apply andb_prop in K as [K _]. apply andb_prop in K as [K _]. apply andb_prop in K as [Ke Kp].
  pose proof (proj1 (forallb_forall _ _) KP pat HI) as K1. cbv beta in K1. rewrite EA in K1.
  assert (HFt : fits c pat = true).
  { unfold fits. apply forallb_forall. intros p Hp. apply in_seq in Hp. rewrite LG, R5 by lia.
    change (Bool.eqb false (Reqb (rT (AMass p)) 0) = true). destruct (Reqb (rT (AMass p)) 0) eqn:EZ; [apply Reqb_true in EZ; contradiction (HP p ltac:(lia) EZ)|]. reflexivity. }
  rewrite HFt in K1. apply existsb_exists in K1 as (two & Ht & K1). unfold term_check in K1.
  assert (HPm : rT (APm n_prop) = 0).
  { rewrite (proj1 (R8 n_prop (agree_prop c b _ _ EB Kp))). exact (agree_ok junk c o _ _ Hc Kp HR). }
  assert (He' : rT (AMem n_e) = e).
  { pose proof (R9 n_e Ke) as X. rewrite HE in X. injection X as X. symmetry. exact X. }
  set (q := fun p => nth p [q1; q2; q3; q4] (V4 (tZ (n:=RN st eps) 0) (tZ (n:=RN st eps) 0) (tZ (n:=RN st eps) 0) (tZ (n:=RN st eps) 0))).
  assert (VAL : forall a b c' d, M n_amp (zs4 (a, b, c', d)) = Cdiv (Cmult (RtoC (-2 * e * e)) (amp_legs st eps q1 q2 q3 q4 a b c' d)) (RtoC s)).
  { intros a b' c' d. assert (HS4 : In (a, b', c', d) spins4) by (destruct a, b', c', d; cbn; tauto).
    pose proof (proj1 (forallb_forall _ _) K1 _ HS4) as X. cbv beta in X.
    destruct (pinner (Qj pat) c b1 n_amp (zs4 (a, b', c', d))) as [|?|y] eqn:EY; try discriminate X. apply eqC_eq in X.
    destruct (amp_value junk c pat b1 o2 rT HQ1 HQ2 _ _ _ EY) as [Y1 Y2].
    assert (Hin : In (n_amp, Tsinglet) (structures c)).
    { destruct (structures c) as [|[m [| | | |]] [|]]; try discriminate I5. apply Pos.eqb_eq in I5. subst m. left. reflexivity. }
    assert (Hcf : In (zs4 (a, b', c', d)) (configs c [])) by (rewrite I3; apply in_map; exact HS4).
    pose proof (HM _ _ Hin Hcf) as Y3. cbn [fst] in Y3. rewrite Y1 in Y3.
    assert (Y4 : M n_amp (zs4 (a, b', c', d)) = amp_of (num:=RN st eps) junk c o2 n_amp (zs4 (a, b', c', d))) by (injection Y3 as Y3; symmetry; exact Y3).
    rewrite Y4. etransitivity; [exact Y2|]. subst y.
    etransitivity; [exact (qed_val st eps rT _ q (fun p mu Hp => R1 p mu Hp) HP (fun p Hp => R6 p Hp) HPm two a b' c' d Ht)|].
    rewrite He'. reflexivity. }
  destruct (colourings c) as [|col [|]] eqn:EC; try discriminate I6.
  assert (AMP : forall z, amplitude c M z col = M n_amp z).
  { intros z. unfold amplitude. destruct (structures c) as [|[m [| | | |]] [|]]; try discriminate I5. apply Pos.eqb_eq in I5. subst m. cbn [Csum fst snd].
    unfold tensor_at. destruct (M n_amp z). unfold Cplus, Cmult, RtoC. cbn [fst snd]. f_equal; ring. }
  rewrite Rsum_map.
  etransitivity; [apply (f_equal (Rmult (/ INR 4))); apply Rsum_ext; intros z _; cbn [Rsum]; rewrite AMP; reflexivity|].
  assert (ABS : forall a b' c' d, Cmod (M n_amp (zs4 (a, b', c', d))) ^ 2 = 4 * e ^ 4 / s ^ 2 * Cmod (amp_legs st eps q1 q2 q3 q4 a b' c' d) ^ 2).
  { intros. rewrite VAL, Cmod_div, Cmod_mult, !Cmod_R by (intros X; apply RtoC_inj in X; lra).
    rewrite (Rabs_right s) by lra. rewrite !Rabs_mult. rewrite (Rabs_left (-2)) by lra.
    assert (A2 : Rabs e ^ 2 = e ^ 2) by (rewrite RPow_abs, Rabs_right; [reflexivity|apply Rle_ge; nra]).
    replace (4 * e ^ 4) with (4 * (e ^ 2) ^ 2) by ring. rewrite <- A2. field. lra. }
  unfold spins4. cbn [flat_map map app Rsum]. rewrite !ABS.
  pose proof (legs_sum st eps me mm q1 q2 q3 q4 S1 S2 S3 S4 E1 E2 E3 E4) as LS.
  rewrite (conserved_dots q1 q2 q3 q4 me mm S1 S2 S3 S4 HC) in LS. cbv zeta in LS. unfold rboth in LS. fold s t u in LS.
  replace (me * me + mm * mm) with S in LS by (unfold S; ring).
  replace (2 * e ^ 4 / s ^ 2 * ((t - S) ^ 2 + (u - S) ^ 2 + 2 * s * S)) with (e ^ 4 / s ^ 2 * (2 * ((t - S) ^ 2 + (u - S) ^ 2 + 2 * s * S))) by (field; lra).
  rewrite <- LS. simpl INR. field. lra.
Qed.
Print Assumptions C49_textbook.

(** In terms of the arguments of the constructor. *)
Definition new_check (c : cls) : bool :=
  match shape c with
  | POk b => match b_T b n_e, b_P b with
             | Some (TAt (APar 0)), [(Some (TAt (APar 1)), _); _; (Some (TAt (APar 2)), _); _] => true
             | _, _ => false end
  | _ => false end.
Lemma new_checks : forallb new_check qed_classes = true.
Proof. vm_cast_no_check (eq_refl true). Qed.
Lemma qed_new c st eps (junk : id -> nat -> T (RN st eps)) e me mm o : In c qed_classes -> construct (num:=RN st eps) junk c [e; me; mm] = (Ok tt, o) ->
  o_T o n_e = Val e /\ leg_mass (num:=RN st eps) o 0 me /\ leg_mass (num:=RN st eps) o 2 mm.
Proof.
  intros Hq EC. pose proof (proj1 (forallb_forall _ _) new_checks c Hq) as K. unfold new_check in K.
  destruct (shape c) as [|?|b] eqn:EB; try discriminate K.
  destruct (construct_shape junk c [e; me; mm] o b EC EB) as (D & HO).
  destruct (b_T b n_e) as [y|] eqn:E1; [|discriminate K].
  destruct (b_P b) as [|[[y0|] ?] [|? [|[[y2|] ?] [|? [|]]]]] eqn:EP;
  repeat match type of K with context [match ?t with _ => _ end] => destruct t; try discriminate K end.
  destruct (or_T _ _ _ _ _ _ _ HO _ _ E1) as (v & V1 & V2).
  split; [rewrite V1; unfold RTs in V2; cbn in V2; subst; reflexivity|].
  split.
  - destruct (or_M _ _ _ _ _ _ _ HO 0%nat _ _ ltac:(rewrite EP; reflexivity)) as (P & m & P1 & P2 & P3). unfold RTs in P3. cbn in P3. subst m.
    exact (mass_held _ _ _ _ _ _ P1 P2).
  - destruct (or_M _ _ _ _ _ _ _ HO 2%nat _ _ ltac:(rewrite EP; reflexivity)) as (P & m & P1 & P2 & P3). unfold RTs in P3. cbn in P3. subst m.
    exact (mass_held _ _ _ _ _ _ P1 P2).
Qed.
Theorem C49_textbook_new :
  forall c, In c qed_classes ->
  forall st eps, 0 <= eps ->
  forall (junk : id -> nat -> T (RN st eps)) (e me mm : R) o, construct (num:=RN st eps) junk c [e; me; mm] = (Ok tt, o) -> me <> 0 -> mm <> 0 ->
  forall q1 q2 q3 q4 : vec4 R,
    on_shell me q1 -> on_shell me q2 -> on_shell mm q3 -> on_shell mm q4 ->
    0 <= v_0 q1 -> 0 <= v_0 q2 -> 0 <= v_0 q3 -> 0 <= v_0 q4 ->
    vadd q1 q2 = vadd q3 q4 ->
    let g := callm (num:=RN st eps) junk c n_set_momenta [GMom (num:=RN st eps) q1; GMom (num:=RN st eps) q2; GMom (num:=RN st eps) q3; GMom (num:=RN st eps) q4] o in
    let s := minksq (vadd q1 q2) in let t := minksq (vsub q1 q3) in let u := minksq (vsub q1 q4) in let S := me ^ 2 + mm ^ 2 in
    fst (callm (num:=RN st eps) junk c n_amp2 [] (snd g)) =
      Ok (Some (RtT (num:=RN st eps) (2 * e ^ 4 / s ^ 2 * ((t - S) ^ 2 + (u - S) ^ 2 + 2 * s * S)))).
Proof.
  intros c Hq st eps He junk e me mm o EC Nme Nmm q1 q2 q3 q4 S1 S2 S3 S4 E1 E2 E3 E4 HC.
  destruct (qed_new c st eps junk e me mm o Hq EC) as (H1 & H2 & H3).
  exact (proj2 (proj2 (C49_textbook c Hq st eps He junk o (reached_new (num:=RN st eps) junk c _ o EC) e me mm H1 H2 H3 Nme Nmm
    q1 q2 q3 q4 S1 S2 S3 S4 E1 E2 E3 E4 HC [] eq_refl))).
Qed.
Print Assumptions C49_textbook_new.

(** With a massless electron or muon amp2 throws: the textbook formula has a value there, the
    code has none. *)
Theorem C49_massless_throws :
  forall c, In c qed_classes ->
  forall st eps (junk : id -> nat -> T (RN st eps)) (o : obj (RN st eps)), reached (num:=RN st eps) junk c o ->
  forall me mm : R, leg_mass (num:=RN st eps) o 0 me -> leg_mass (num:=RN st eps) o 2 mm -> me = 0 \/ mm = 0 ->
  forall q1 q2 q3 q4 : vec4 R,
    let g := callm (num:=RN st eps) junk c n_set_momenta [GMom (num:=RN st eps) q1; GMom (num:=RN st eps) q2; GMom (num:=RN st eps) q3; GMom (num:=RN st eps) q4] o in
    isOk (fst g) = true ->
  forall rs, forallb reading rs = true ->
  exists x, fst (callm (num:=RN st eps) junk c n_amp2 [] (snd (orun (num:=RN st eps) junk c rs (snd g)))) = Exn x.
Proof.
  intros c Hq st eps junk o HR me mm L0 L2 HZ q1 q2 q3 q4 g HOk rs Hrs. pose proof (qed_sm c Hq) as Hc.
  pose proof (proj1 (forallb_forall _ _) qed_info c Hq) as QI. cbv beta in QI.
  apply andb_prop in QI as [QI _]. apply andb_prop in QI as [QI _]. apply andb_prop in QI as [_ I4].
  destruct (pair_state (num:=RN st eps) junk c o [] [q1; q2; q3; q4] [q1; q2; q3; q4] rs rs Hc (polar_real st eps) HR eq_refl eq_refl eq_refl HOk HOk Hrs Hrs)
    as (b & pat & b1 & rT & rT' & EB & HI & EA & R1 & _ & _ & R4 & R5 & R8 & R9 & R6 & _ & HQ & _).
  set (o2 := snd (orun (num:=RN st eps) junk c rs (snd g))).
  change (snd (orun (num:=RN st eps) junk c rs (snd (callm (num:=RN st eps) junk c n_set_momenta (map (GMom (num:=RN st eps)) [q1; q2; q3; q4]) o)))) with o2 in HQ.
  destruct (HQ (amp_of junk c o2)) as [HQ1 HQ2]. clear HQ.
  assert (RM : forall p m, (p < 4)%nat -> leg_mass (num:=RN st eps) o p m -> rT (AMass p) = m).
  { intros p m Hp (P & P1 & P2). destruct (R4 p Hp) as (P' & E3' & E4'). rewrite P1 in E3'. injection E3' as <-.
    unfold mass in P2. rewrite E4' in P2. change (Ok (rT (AMass p) : T (RN st eps)) = Ok (m : T (RN st eps))) in P2. congruence. }
  assert (HP : exists p, (p < 4)%nat /\ pat p = true).
  { destruct HZ as [HZ|HZ]; [exists 0%nat|exists 2%nat]; (split; [lia|]); rewrite R5 by lia.
    - rewrite (RM 0%nat me ltac:(lia) L0), HZ. apply Reqb_refl.
    - rewrite (RM 2%nat mm ltac:(lia) L2), HZ. apply Reqb_refl. }
  destruct HP as (p & Hp & Pp).
  assert (HFt : fits c pat = false).
  { destruct (fits c pat) eqn:E; [exfalso|reflexivity]. unfold fits in E. pose proof (proj1 (forallb_forall _ _) E p ltac:(apply in_seq; lia)) as X. cbv beta in X.
    pose proof (proj1 (forallb_forall _ _) I4 p ltac:(cbn; lia)) as Y. cbv beta in Y. rewrite Pp in X. destruct (leg c p) as [[]|]; discriminate. }
  pose proof (proj1 (forallb_forall _ _) qed_checks c Hq) as K. unfold qed_check in K. rewrite EB in K.
  apply andb_prop in K as [_ KP]. pose proof (proj1 (forallb_forall _ _) KP pat HI) as K1. cbv beta in K1. rewrite EA, HFt in K1.
  pose proof (summed_ref junk c pat b1 o2 rT HQ1 HQ2 n_amp2) as X. unfold REF in X.
  destruct (summed c pat n_amp2 b1) as [|x|]; try discriminate K1.
  destruct (fst (callm (num:=RN st eps) junk c n_amp2 [] o2)) as [?|x'|?] eqn:Ef; [contradiction X| |discriminate X]. exists x'. reflexivity.
Qed.
Print Assumptions C49_massless_throws.

Lemma qed_built : match built true eemmQED with POk _ => true | _ => false end = true.
Proof. vm_cast_no_check (eq_refl true). Qed.
(** e e > mu mu with me = 12, mm = 5, e = 1 at s = 26^2, scattering along the axis. *)
Example C49_example :
  exists o : obj (RN false 0), construct (num:=RN false 0) (fun _ _ => 0) eemmQED [1; 12; 5] = (Ok tt, o) /\
    let g := callm (num:=RN false 0) (fun _ _ => 0) eemmQED n_set_momenta
      [GMom (num:=RN false 0) (V4 13 0 0 5); GMom (num:=RN false 0) (V4 13 0 0 (-5)); GMom (num:=RN false 0) (V4 13 0 0 12); GMom (num:=RN false 0) (V4 13 0 0 (-12))] o in
    fst (callm (num:=RN false 0) (fun _ _ => 0) eemmQED n_amp2 [] (snd g)) = Ok (Some (RtT (num:=RN false 0) (2 / 676 ^ 2 * (218 ^ 2 + 458 ^ 2 + 2 * 676 * 169)))).
Proof.
  destruct (built true eemmQED) as [|e|b] eqn:EB; [pose proof qed_built as X; rewrite EB in X; discriminate X|pose proof qed_built as X; rewrite EB in X; discriminate X|].
  destruct (new_real 0 (fun _ _ => 0) eemmQED [1; 12; 5] b EB eq_refl) as (o & HR & EC & _). exists o. split; [exact EC|].
  assert (S5 : on_shell 12 (V4 13 0 0 5)) by (unfold on_shell, minksq; cbn; lra).
  assert (S5' : on_shell 12 (V4 13 0 0 (-5))) by (unfold on_shell, minksq; cbn; lra).
  assert (S12 : on_shell 5 (V4 13 0 0 12)) by (unfold on_shell, minksq; cbn; lra).
  assert (S12' : on_shell 5 (V4 13 0 0 (-12))) by (unfold on_shell, minksq; cbn; lra).
  assert (E13 : forall z, 0 <= v_0 (V4 13 0 0 z)) by (intros z; cbn; lra).
  assert (HC : vadd (V4 13 0 0 5) (V4 13 0 0 (-5)) = vadd (V4 13 0 0 12) (V4 13 0 0 (-12))) by (unfold vadd; cbn; f_equal; lra).
  pose proof (C49_textbook_new eemmQED (or_introl eq_refl) false 0 ltac:(lra) (fun _ _ => 0) 1 12 5 o EC ltac:(lra) ltac:(lra)
    _ _ _ _ S5 S5' S12 S12' (E13 5) (E13 (-5)) (E13 12) (E13 (-12)) HC) as K. cbn zeta in K |- *. rewrite K. do 3 f_equal.
  unfold minksq, vadd, vsub. cbn [v_0 v_1 v_2 v_3]. field.
Qed.
