(** * set_v takes effect like a new construction: C64

    eeAh and eAeh are the only classes with a method set_v (SM/eeAh.cpp:61-63,
    SM/eAeh.cpp:61-63). *)
From Coq Require Import QArith String Lia.
From Verif Require Import Base Scalar Linear Integers Particle Sproduct Propagator Process
  ParticleProofs Ready ParticleClaims SpecSproduct WorldProofs Lang LangFrame Pure PureProofs ReadOnly Sym SMNames
  SMRun SMTwins SMMasses SMAll SMChecks SMRebuild IEEE SMFloat PropsClasses PropsRebuild.
From Flocq Require Import BinarySingleNaN.
Close Scope Q_scope.
Open Scope st_scope.

(** The constructor parameters (echarge, masse, massh, vev) that a history of calls leaves in
    force: set_v(x) replaces vev, set_masses(a,b) replaces masse and massh, no other call
    (nor one with the wrong arguments) replaces anything. *)
Definition latest1 {num : Num} (l : list (T num)) (k : ocall num) : list (T num) :=
  match l, k with
  | [e; me; mh; v], OCall m [GT x] => if Pos.eqb m n_set_v then [e; me; mh; x] else l
  | [e; me; mh; v], OCall m [GT a; GT b] => if Pos.eqb m n_set_masses then [e; a; b; v] else l
  | _, _ => l
  end.
Definition latest {num : Num} (l : list (T num)) (h : list (ocall num)) : list (T num) := fold_left latest1 h l.

Definition with_vev : list cls := [eAeh; eeAh].
Lemma with_vev_in c : In c with_vev -> In c sm_classes.
Proof. intros [<-|[<-|[]]]; unfold sm_classes; rewrite !in_app_iff; cbn; tauto. Qed.

(** ** What the objects hold *)
Definition vmem {num : Num} (e me mh v : T num) (x : id) : T num :=
  if Pos.eqb x n_e then e else if Pos.eqb x n_me then me else if Pos.eqb x n_mh then mh else
  if Pos.eqb x n_v then v else tsqrt (tZ 2).
Definition vlegs {num : Num} (c : cls) (me mh : T num) : list (T num) :=
  if String.eqb (c_name c) "eeAh" then [me; me; tZ 0; mh] else [me; tZ 0; me; mh].
Definition five : list id := [n_e; n_me; n_mh; n_v; n_sqrt2].
Lemma vev_static c : In c with_vev ->
  forallb (fun x => memb x five) (members c) = true /\ forallb (fun x => Pos.eqb x n_prop) (props c) = true /\
  forallb (fun x => negb (k_T (dyn_mask c) x)) five = true /\ k_R (dyn_mask c) n_prop = false.
Proof. intros [<-|[<-|[]]]; vm_compute; auto. Qed.

Lemma nth_fst {A B} (P : list (option A * B)) : forall (l : list A) p, map fst P = map Some l -> (p < length l)%nat ->
  exists y q, nth_error P p = Some (Some y, q) /\ nth_error l p = Some y.
Proof.
  induction P as [|[y q] P IH]; intros [|z l] p H Hp; try discriminate H; [inversion Hp|]. cbn in H. injection H as -> H.
  destruct p as [|p]; [cbn; eauto|]. apply (IH l p H). cbn in Hp. lia.
Qed.

Section Hold.
  Context {num : Num}.
  Variable c : cls.
  Hypothesis Hc : In c with_vev.
  Variable b : pobj snum.
  Hypothesis EB : shape c = POk b.
  Variable junk : id -> nat -> T num.

  Record holds (e me mh v : T num) (o : obj num) : Prop := mkHolds {
    ho_S : shaped b o;
    ho_T : forall x, In x five -> o_T o x = Val (vmem e me mh v x);
    ho_R : o_R o n_prop = mkPropagator me (tZ 0);
    ho_m : forall p, (p < 4)%nat -> exists P, nth_error (o_heap o) p = Some P /\ pa_m P = Val (nth p (vlegs c me mh) (tZ 0)) }.

  Definition vshape : option (list (option sT) * option (propagator snum) * list (option sT)) :=
    Some (map (b_T b) five, b_R b n_prop, map fst (b_P b)).
  Lemma vshape_eq : has_masses b = true /\ vshape =
    Some ([Some (TAt (APar 0)); Some (TAt (APar 1)); Some (TAt (APar 2)); Some (TAt (APar 3)); Some (TSqr (TInt 2))],
      Some (mkPropagator (num:=snum) (TAt (APar 1)) (TInt 0)),
      map Some (vlegs (num:=snum) c (TAt (APar 1)) (TAt (APar 2)))).
  Proof.
    assert (K : match shape c with POk b => has_masses b = true /\ Some (map (b_T b) five, b_R b n_prop, map fst (b_P b)) =
      Some ([Some (TAt (APar 0)); Some (TAt (APar 1)); Some (TAt (APar 2)); Some (TAt (APar 3)); Some (TSqr (TInt 2))],
      Some (mkPropagator (num:=snum) (TAt (APar 1)) (TInt 0)),
      map Some (vlegs (num:=snum) c (TAt (APar 1)) (TAt (APar 2)))) | _ => False end).
    { clear EB. destruct Hc as [<-|[<-|[]]]; vm_compute; split; reflexivity. }
    rewrite EB in K. exact K.
  Qed.

  Lemma holds_new e me mh v o : construct junk c [e; me; mh; v] = (Ok tt, o) -> holds e me mh v o.
  Proof.
    intros EC. destruct vshape_eq as [HM HV]. pose proof (construct_shaped junk c _ o b EC EB HM) as HS.
    destruct (construct_shape junk c _ o b EC EB) as (Dd & HO). unfold vshape in HV.
    injection HV as T1 T2 T3 T4 T5 HR HPs. constructor; [exact HS|..].
    - assert (G : forall x y w, b_T b x = Some y -> denT (rT0 junk [e; me; mh; v]) rC0 y = w -> o_T o x = Val w).
      { intros x y w Ex <-. destruct (or_T _ _ _ _ _ _ _ HO x y Ex) as (u & -> & ->). reflexivity. }
      intros x [<-|[<-|[<-|[<-|[<-|[]]]]]].
      + exact (G _ _ _ T1 eq_refl).
      + exact (G _ _ _ T2 eq_refl).
      + exact (G _ _ _ T3 eq_refl).
      + exact (G _ _ _ T4 eq_refl).
      + exact (G _ _ _ T5 eq_refl).
    - destruct (or_R _ _ _ _ _ _ _ HO n_prop _ HR) as [A1 A2]. destruct (o_R o n_prop) as [m w]. cbn in A1, A2. rewrite A1, A2. reflexivity.
    - intros p Hp.
      assert (EM : exists y q, nth_error (b_P b) p = Some (Some y, q) /\ nth_error (vlegs (num:=snum) c (TAt (APar 1)) (TAt (APar 2))) p = Some y).
      { refine (nth_fst (A:=sT) (b_P b) _ p HPs _). unfold vlegs. destruct (String.eqb (c_name c) "eeAh"); exact Hp. }
      destruct EM as (y & q & E1 & E2). destruct (or_M _ _ _ _ _ _ _ HO p y q E1) as (P & m & F1 & F2 & F3).
      exists P. split; [exact F1|]. rewrite F2. f_equal. unfold RTs in F3. rewrite F3. revert E2. unfold vlegs.
      destruct (String.eqb (c_name c) "eeAh"); do 4 (destruct p as [|p]; [intros [= <-]; reflexivity|]); lia.
  Qed.
  Lemma holds_like e me mh v o o' : holds e me mh v o -> like (dyn_mask c) o o' -> holds e me mh v o'.
  Proof.
    intros [H1 H2 H3 H4] L. destruct (vev_static c Hc) as (_ & _ & D & D'). constructor.
    - exact (shaped_like _ _ _ _ H1 L).
    - intros x Hx. rewrite (like_T _ _ _ L); [apply H2, Hx|]. apply negb_true_iff. exact (proj1 (forallb_forall _ _) D x Hx).
    - rewrite (like_R _ _ _ L); [exact H3|exact D'].
    - intros p Hp. destruct (H4 p Hp) as (P & E1 & E2). destruct (proj2 (like_h _ _ _ L) p P E1) as (P' & F1 & F2 & _).
      exists P'. split; [exact F1|]. rewrite F2 by reflexivity. exact E2.
  Qed.
  Lemma holds_v e me mh v x o : holds e me mh v o -> holds e me mh x (snd (callm junk c n_set_v [GT x] o)).
  Proof.
    intros [[S1 S2 S3] H2 H3 H4].
    assert (E : callm junk c n_set_v [GT x] o = (Ok None, mkObj (upd (o_T o) n_v (Val x)) (o_C o) (o_R o) (o_S o) (o_heap o))).
    { clear - Hc. destruct Hc as [<-|[<-|[]]]; destruct o; reflexivity. }
    rewrite E. cbn [snd]. constructor; [constructor; assumption| |exact H3|exact H4].
    intros y Hy. specialize (H2 y Hy). cbn [o_T]. destruct Hy as [<-|[<-|[<-|[<-|[<-|[]]]]]]; try exact H2. reflexivity.
  Qed.
  Lemma holds_masses e me mh v x y o : holds e me mh v o -> holds e x y v (snd (callm junk c n_set_masses [GT x; GT y] o)).
  Proof.
    intros [[S1 S2 S3] H2 H3 H4]. destruct o as [oT oC oR oS hp]. cbn [o_heap o_T o_R] in *.
    destruct hp as [|p0 [|p1 [|p2 [|p3 [|]]]]]; try discriminate S2.
    assert (E : exists oT' oR' hp', callm junk c n_set_masses [GT x; GT y] (mkObj oT oC oR oS [p0; p1; p2; p3]) = (Ok None, mkObj oT' oC oR' oS hp') /\
      oT' = upd (upd oT n_me (Val x)) n_mh (Val y) /\ oR' n_prop = mkPropagator x (pr_w (oR n_prop)) /\
      length hp' = 4%nat /\ forall p, (p < 4)%nat -> exists P, nth_error hp' p = Some P /\
        (pa_m P = Val (nth p (vlegs c x y) (tZ 0)) \/ (nth p (vlegs c x y) (tZ 0) = tZ 0 /\ pa_m P = match nth_error [p0; p1; p2; p3] p with Some P0 => pa_m P0 | None => pa_m P end /\ nth p (vlegs c me mh) (tZ 0) = tZ 0))).
    { clear - Hc. destruct Hc as [<-|[<-|[]]]; eexists; eexists; eexists; (split; [lazy; reflexivity|]); (split; [reflexivity|]);
        (split; [reflexivity|]); (split; [reflexivity|]); intros p Hp;
        do 4 (destruct p as [|p]; [eexists; split; [reflexivity|]; first [left; reflexivity|right; split; [reflexivity|split; reflexivity]]|]); lia. }
    destruct E as (oT' & oR' & hp' & E & ET & ER & EL & EH). rewrite E. cbn [snd]. subst oT'.
    assert (HM : forall p, (p < 4)%nat -> exists P, nth_error hp' p = Some P /\ pa_m P = Val (nth p (vlegs c x y) (tZ 0))).
    { intros p Hp. destruct (EH p Hp) as (P & F1 & [F2|(F2 & F3 & F4)]); exists P; (split; [exact F1|]); [exact F2|].
      destruct (H4 p Hp) as (P0 & G1 & G2). rewrite G1 in F3. rewrite F3, G2, F2, F4. reflexivity. }
    constructor; cbn [o_T o_R o_S o_heap].
    - constructor; cbn [o_S o_heap]; [exact S1|exact EL|]. intros p Hp. destruct (HM p Hp) as (P & F1 & F2). eauto.
    - intros z Hz. specialize (H2 z Hz). destruct Hz as [<-|[<-|[<-|[<-|[<-|[]]]]]]; try exact H2; reflexivity.
    - rewrite ER, H3. reflexivity.
    - exact HM.
  Qed.
  Lemma vev_other args m o : is_setter m = true -> (forall x, m = n_set_v -> args <> [GT x]) ->
    (forall x y, m = n_set_masses -> args <> [GT x; GT y]) -> snd (callm junk c m args o) = o.
  Proof.
    intros Hm N1 N2. unfold is_setter in Hm. apply orb_prop in Hm as [Hm|Hm]; apply Pos.eqb_eq in Hm; subst m.
    - clear N1. destruct args as [|[x|x|x] [|[y|y|y] [|]]]; try (exfalso; apply (N2 x y eq_refl); reflexivity);
        clear - Hc; destruct Hc as [<-|[<-|[]]]; destruct o; reflexivity.
    - clear N2. destruct args as [|[x|x|x] [|]]; try (exfalso; apply (N1 x eq_refl); reflexivity);
        clear - Hc; destruct Hc as [<-|[<-|[]]]; destruct o; reflexivity.
  Qed.
  Definition held (l : list (T num)) (o : obj num) : Prop :=
    match l with [e; me; mh; v] => holds e me mh v o | _ => False end.
  Lemma held_step l o k : held l o -> held (latest1 l k) (snd (ostep junk c k o)).
  Proof.
    destruct l as [|e [|me [|mh [|v [|]]]]]; try contradiction. intros H. destruct k as [m args]. cbn [ostep].
    destruct (is_setter m) eqn:Es.
    2: { assert (EQ : latest1 [e; me; mh; v] (OCall m args) = [e; me; mh; v]).
         { unfold is_setter in Es. apply orb_false_elim in Es as [E1 E2]. cbn [latest1]. rewrite E1, E2.
           destruct args as [|[x|x|x] [|[y|y|y] [|]]]; reflexivity. }
         rewrite EQ. apply (holds_like _ _ _ _ o); [exact H|]. apply method_quiet. apply dyn_ok; [apply with_vev_in, Hc|exact Es]. }
    destruct (Pos.eqb m n_set_v) eqn:Ev.
    - apply Pos.eqb_eq in Ev. subst m.
      destruct args as [|[x|x|x] [|[y|y|y] [|]]];
        first [exact (holds_v _ _ _ _ x o H)|rewrite vev_other; [exact H|reflexivity|discriminate|discriminate]].
    - assert (m = n_set_masses). { unfold is_setter in Es. rewrite Ev, orb_false_r in Es. apply Pos.eqb_eq, Es. } subst m.
      destruct args as [|[x|x|x] [|[y|y|y] [|]]];
        first [exact (holds_masses _ _ _ _ x y o H)|rewrite vev_other; [exact H|reflexivity|discriminate|discriminate]].
  Qed.
  Lemma held_run h : forall l o, held l o -> held (latest l h) (snd (orun junk c h o)).
  Proof.
    induction h as [|k h IH]; intros l o H; [exact H|]. pose proof (held_step l o k H) as K. cbn [orun latest fold_left].
    destruct (ostep junk c k o) as [r o']. cbn [snd] in K. specialize (IH _ _ K). destruct (orun junk c h o') as [rs o'']. exact IH.
  Qed.
  Lemma held_twin l o1 o2 : held l o1 -> held l o2 -> twin (dyn_mask c) b o1 o2.
  Proof.
    destruct l as [|e [|me [|mh [|v [|]]]]]; try contradiction. intros H1 H2. destruct (vev_static c Hc) as (MM & MR & _ & _).
    assert (KT : forall x, known (dyn_mask c) b x = true -> In x five).
    { intros x Hx. apply andb_prop in Hx as [Hx _]. apply negb_true_iff in Hx. cbn in Hx. apply orb_false_elim in Hx as [_ Hx].
      apply negb_false_iff in Hx. apply memb_in. exact (proj1 (forallb_forall _ _) MM x (memb_in _ _ Hx)). }
    assert (KR : forall r, k_R (dyn_mask c) r = false -> r = n_prop).
    { intros x Hx. cbn in Hx. apply negb_false_iff in Hx. apply Pos.eqb_eq. exact (proj1 (forallb_forall _ _) MR x (memb_in _ _ Hx)). }
    assert (A : forall q o, holds e me mh v o -> agrees (dyn_mask c) b (vmem e me mh v) (fun _ => mkPropagator me (tZ 0)) (ext_of o1 q []) o).
    { intros q o [A1 A2 A3 A4]. constructor.
      - intros x Hx. apply A2, KT, Hx.
      - intros r Hr. rewrite (KR r Hr). exact A3.
      - intros p Hp. destruct (A4 p Hp) as (P & F1 & F2). exists P. split; [exact F1|]. rewrite F2. f_equal.
        destruct (ho_m _ _ _ _ _ H1 p Hp) as (P' & G1 & G2). cbn. unfold omass. rewrite Nat.min_l by lia. rewrite G1, G2. reflexivity. }
    split; [exact (ho_S _ _ _ _ _ H1)|]. split; [exact (ho_S _ _ _ _ _ H2)|].
    exists o1, (vmem e me mh v), (fun _ => mkPropagator me (tZ 0)). intros q. split; apply A; assumption.
  Qed.
End Hold.

(** C64.  One object has any history of calls, with set_v and set_masses among them; another
    is constructed with the parameters then in force ([latest]), and has any history without
    setters.  Given the same momenta, both end alike, and answer alike from then on. *)
Theorem C64_set_v :
  forall c, In c [eAeh; eeAh] ->
  forall num : Num, polar_total (num:=num) ->
  forall (junk : id -> nat -> T num) (e me mh v : T num) (o o2 : obj num) (h h2 : list (ocall num)),
    construct junk c [e; me; mh; v] = (Ok tt, o) ->
    construct junk c (latest [e; me; mh; v] h) = (Ok tt, o2) ->
    forallb no_setter h2 = true ->
  forall q1 q2 q3 q4 : mom num,
    let given o := callm junk c n_set_momenta [GMom q1; GMom q2; GMom q3; GMom q4] o in
    let g1 := given (snd (orun junk c h o)) in
    let g2 := given (snd (orun junk c h2 o2)) in
    fst g1 = fst g2 /\
    (isOk (fst g1) = true ->
     forall rs1 rs2, forallb reading rs1 = true -> forallb reading rs2 = true ->
     forall m, argless c m ->
       fst (callm junk c m [] (snd (orun junk c rs1 (snd g1)))) =
       fst (callm junk c m [] (snd (orun junk c rs2 (snd g2))))).
Proof.
  intros c Hv num HP junk e me mh v o o2 h h2 E1 E2 Hh q1 q2 q3 q4. cbn zeta. pose proof (with_vev_in c Hv) as Hc.
  destruct (shape_c c Hc) as (b & EB & HM & HA).
  pose proof (held_run c Hv b junk h [e; me; mh; v] o (holds_new c Hv b EB junk e me mh v o E1)) as K1.
  assert (K2 : held c b (latest [e; me; mh; v] h) o2).
  { destruct (latest [e; me; mh; v] h) as [|e' [|me' [|mh' [|v' [|]]]]]; try contradiction. exact (holds_new c Hv b EB junk e' me' mh' v' o2 E2). }
  assert (HT : twin (dyn_mask c) b (snd (orun junk c h o)) (snd (orun junk c h2 o2))).
  { apply (twin_like _ _ (snd (orun junk c h o)) o2); [reflexivity|exact (held_twin c Hv b _ _ _ K1 K2)|apply like_refl|apply like_history; assumption]. }
  destruct (twins c (dyn_mask c) b (argless_list c) HP (takes_c c Hc) HA junk junk _ _ [q1; q2; q3; q4] HT eq_refl) as [L1 L2].
  split; [exact L1|]. intros HOk rs1 rs2 R1 R2 m Hm.
  apply L2; [exact HOk|apply reading_reads; assumption|apply reading_reads; assumption|apply argless_in; assumption].
Qed.
Print Assumptions C64_set_v.

(** No other class has set_v. *)
Lemma only_two : forallb (fun c => named ["eAeh"; "eeAh"]%string c || match find_meth c n_set_v with None => true | _ => false end) sm_classes = true.
Proof. vm_cast_no_check (eq_refl true). Qed.
Theorem C64_no_other :
  forall c, In c sm_classes -> c_name c <> "eAeh"%string -> c_name c <> "eeAh"%string ->
  forall num (junk : id -> nat -> T num) args o, exists u, callm junk c n_set_v args o = (UB u, o).
Proof.
  intros c Hc N1 N2 num junk args o. pose proof (proj1 (forallb_forall _ _) only_two c Hc) as K. cbv beta in K. unfold named in K.
  cbn [existsb] in K. apply String.eqb_neq in N1. apply String.eqb_neq in N2. rewrite N1, N2 in K. cbn [orb] in K.
  unfold callm. change (run junk c 2 n_set_v args) with
    (match find_meth c n_set_v with Some f => invoke junk (run junk c 1) f args | None => slift (UB TypeMismatch) end).
  destruct (find_meth c n_set_v); [discriminate K|]. eexists. reflexivity.
Qed.
Print Assumptions C64_no_other.

(** eeAh(1,5,13,2) in x87 extended arithmetic; then set_v(3), a reading, set_masses(7,11),
    set_v() without its argument, set_v(4).  A new eeAh(1,7,11,4) gives the same finite
    amp2, a new eeAh(1,7,11,2) a different one. *)
Definition vev_history : list (ocall XN) :=
  [OCall n_set_v (map GT (fnums [3%Q])); OCall n_amp2 []; OCall n_set_masses (map GT (fnums [7%Q; 11%Q]));
   OCall n_set_v []; OCall n_set_v (map GT (fnums [4%Q]))].
Definition vev_amp2 (c : cls) (params : list (T XN)) (h : list (ocall XN)) : option F80 :=
  match construct junk0 c params with
  | (Ok tt, o) =>
    let o := snd (orun junk0 c h o) in
    match fkin (fmass o 0) (fmass o 1) (fmass o 2) (fmass o 3) (fz 20) with
    | [q1; q2; q3; q4] =>
      match callm junk0 c n_set_momenta [GMom q1; GMom q2; GMom q3; GMom q4] o with
      | (Ok _, o) => match fst (callm junk0 c n_amp2 [] o) with Ok (Some (RtT x)) => Some x | _ => None end
      | _ => None
      end
    | _ => None
    end
  | _ => None
  end.
Example C64_ex :
  polar_total (num:=XN) /\ latest (fnums [1; 5; 13; 2]%Q) vev_history = fnums [1; 7; 11; 4]%Q /\
  match vev_amp2 eeAh (fnums [1; 5; 13; 2]%Q) vev_history, vev_amp2 eeAh (fnums [1; 7; 11; 4]%Q) [], vev_amp2 eeAh (fnums [1; 7; 11; 2]%Q) [] with
  | Some x, Some y, Some z => finite_nonzero x && negb (far x y) && negb (far y x) && far x z
  | _, _, _ => false
  end = true.
Proof.
  split; [apply polar_lenient; reflexivity|]. split; [reflexivity|]. vm_cast_no_check (eq_refl true).
Qed.
