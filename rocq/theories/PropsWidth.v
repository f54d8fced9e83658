(** * Widths: C50 *)
From Coq Require Import Reals QArith String Ascii Lia.
From Verif Require Import Base Scalar RealNum Linear Integers Particle Sproduct Propagator Process
  ParticleProofs Ready ParticleClaims SpecSproduct WorldProofs Lang LangFrame Pure PureProofs ReadOnly Sym SMNames
  SMRun SMTwins SMMasses SMAll SMChecks SMState SMRebuild IEEE SMFloat PropsClasses PropsConstruct SM05 SM06.
Close Scope Q_scope.
Close Scope R_scope.
Open Scope nat_scope.
Open Scope st_scope.

(** Which propagator a width belongs to.  (Where W is the only one it is called prop.) *)
Definition belongs (w r : id) : Prop :=
  w = n_widthW /\ (r = n_propW \/ r = n_prop) \/ w = n_widthZ /\ r = n_propZ \/ w = n_widthh /\ r = n_proph.
Definition belongsb (w r : id) : bool :=
  (Pos.eqb w n_widthW && (Pos.eqb r n_propW || Pos.eqb r n_prop)) || (Pos.eqb w n_widthZ && Pos.eqb r n_propZ) ||
  (Pos.eqb w n_widthh && Pos.eqb r n_proph).
Lemma belongsb_ok w r : belongs w r -> belongsb w r = true.
Proof. intros [[-> [-> | ->]]|[[-> ->]|[-> ->]]]; reflexivity. Qed.

(** The classes that take widthZ and have a Z propagator, but never give the width to it. *)
Definition widthless : list string :=
  ["dddd2"; "ddee"; "ddnn"; "ddss"; "deed"; "dnnd"; "dsds"; "eeee"; "eeee2"; "eemm"; "eenene"; "eenmnm"; "emem";
   "enenee"; "enmenm"; "nenenene"; "nenenene2"; "nenenmnm"; "nenmnenm"; "ucuc"; "udud"; "ueeu"; "unnu"; "usus";
   "uucc"; "uudd"; "uuee"; "uunn"; "uuss"; "uuuu"; "uuuu2"]%string.
Definition drops (c : cls) (w : id) : bool := Pos.eqb w n_widthZ && existsb (String.eqb (c_name c)) widthless.

(** the momentum in a channel *)
Definition channel {num : Num} (q1 q2 q3 q4 : mom num) (P : mom num) : Prop :=
  P = V4 (v_0 q1 + v_0 q2)%ld (v_1 q1 + v_1 q2)%ld (v_2 q1 + v_2 q2)%ld (v_3 q1 + v_3 q2)%ld \/
  P = V4 (v_0 q1 - v_0 q3)%ld (v_1 q1 - v_1 q3)%ld (v_2 q1 - v_2 q3)%ld (v_3 q1 - v_3 q3)%ld \/
  P = V4 (v_0 q1 - v_0 q4)%ld (v_1 q1 - v_1 q4)%ld (v_2 q1 - v_2 q4)%ld (v_3 q1 - v_3 q4)%ld.

(** ** The checks *)
Definition schannel (k : nat) : mom snum :=
  let op a := match k with 0 => TOp Add (TAt (AMom 0 a)) (TAt (AMom 1 a))
                         | S k' => TOp Sub (TAt (AMom 0 a)) (TAt (AMom (S k) a)) end in
  V4 (op 0 : T snum) (op 1 : T snum) (op 2 : T snum) (op 3 : T snum).
Definition den_in (r : id) (k : nat) : sC :=
  denominator (num:=snum) (mkPropagator (num:=snum) (TAt (APm r)) (TAt (APw r))) (schannel k).

Definition holds_den (r : id) (y : sC) : bool :=
  match y with
  | CMk x z => existsb (fun k => match den_in r k with CMk x' z' => teq x x' && teq z z' | _ => false end) [0; 1; 2]
  | _ => false
  end.
Definition enters (c : cls) (b : pobj snum) (r : id) (pat : nat -> bool) : bool :=
  match after c (dyn_mask c) b pat with
  | POk (None, b1) => existsb (fun m => match snd m, b_C b1 (fst m) with KC, Some y => holds_den r y | _, _ => false end)
                        (c_members c)
  | _ => false
  end.
(** all propagators [r] and widths [w]: what the constructor has put there *)
Definition check_width (c : cls) (b : pobj snum) (k : nat) (w r : id) : bool :=
  if belongsb w r then
    match b_R b r with
    | Some pr => if drops c w then match pr_w pr with TInt 0 => true | _ => false end
                 else match pr_w pr with TAt (APar j) => Nat.eqb j k | _ => false end
    | None => false
    end && forallb (enters c b r) all_pats
  else true.
Definition check50 (c : cls) : bool :=
  match shape c with
  | POk b => forallb (fun kw => forallb (check_width c b (fst kw) (snd kw)) (props c))
               (combine (seq 0 (length (c_params c))) (c_params c))
  | _ => false
  end.
Lemma sm_check50 : forallb check50 sm_classes = true.
Proof. vm_cast_no_check (eq_refl true). Qed.

(** ** Soundness of the checks *)
Lemma check50_c c b : In c sm_classes -> shape c = POk b -> forall k w r, nth_error (c_params c) k = Some w ->
  In r (props c) -> belongs w r -> check_width c b k w r = true.
Proof.
  intros Hc EB k w r Hk Hr Hw. pose proof (proj1 (forallb_forall _ _) sm_check50 c Hc) as K. unfold check50 in K. rewrite EB in K.
  assert (HI : In (k, w) (combine (seq 0 (length (c_params c))) (c_params c))).
  { assert (G : forall l s j, nth_error l j = Some w -> In (s + j, w) (combine (seq s (length l)) l)).
    { induction l as [|x l IH]; intros s [|j] E; try discriminate E; cbn in *.
      - injection E as ->. left. f_equal. lia.
      - right. specialize (IH (S s) j E). rewrite Nat.add_succ_r. exact IH. }
    exact (G _ 0 k Hk). }
  pose proof (proj1 (forallb_forall _ _) K _ HI) as K2. cbn [fst snd] in K2.
  exact (proj1 (forallb_forall _ _) K2 r Hr).
Qed.
Lemma props_known c r : In r (props c) -> k_R (dyn_mask c) r = false.
Proof.
  intros H. cbn. apply negb_false_iff. unfold memb. apply existsb_exists. exists r. split; [exact H|apply Pos.eqb_refl].
Qed.
Lemma widths_kept {num : Num} (junk : id -> nat -> T num) c h o r : In c sm_classes -> forallb not_set_v h = true ->
  pr_w (o_R (snd (orun junk c h o)) r) = pr_w (o_R o r).
Proof. intros Hc Hh. apply (like_w _ _ _ (like_history_m junk c h o Hc Hh)). Qed.
Lemma holds_den_ok {num : Num} vT vR o q r y :
  length q = 4 -> holds_den r y = true ->
  exists P, channel (nth 0 q (V4 (tZ 0) (tZ 0) (tZ 0) (tZ 0))) (nth 1 q (V4 (tZ 0) (tZ 0) (tZ 0) (tZ 0)))
                    (nth 2 q (V4 (tZ 0) (tZ 0) (tZ 0) (tZ 0))) (nth 3 q (V4 (tZ 0) (tZ 0) (tZ 0) (tZ 0))) P /\
    denC (num:=num) (rT1 vT vR (ext_of o q [])) (fun _ _ => c0) y = denominator (vR r) P.
Proof.
  intros HL H. unfold holds_den in H. destruct y; try discriminate H. apply existsb_exists in H as (k & Hk & H).
  assert (G : CMk x y = den_in r k).
  { destruct (den_in r k) as [x' z'| | | | | | | | | | ] eqn:E; try discriminate H. apply andb_prop in H as [H1 H2].
    f_equal; apply teq_eq; assumption. }
  rewrite G. exists (V4 (denT (rT1 vT vR (ext_of o q [])) (fun _ _ => c0) (v_0 (schannel k)))
                  (denT (rT1 vT vR (ext_of o q [])) (fun _ _ => c0) (v_1 (schannel k)))
                  (denT (rT1 vT vR (ext_of o q [])) (fun _ _ => c0) (v_2 (schannel k)))
                  (denT (rT1 vT vR (ext_of o q [])) (fun _ _ => c0) (v_3 (schannel k)))).
  split; [|destruct k as [|k]; reflexivity].
  destruct q as [|q1 [|q2 [|q3 [|q4 [|]]]]]; try discriminate HL. unfold channel. cbn [nth].
  destruct Hk as [<-|[<-|[<-|[]]]]; [left|right; left|right; right]; reflexivity.
Qed.
Lemma width_enters {num : Num} c b k w r (junk : id -> nat -> T num) o : In c sm_classes -> shape c = POk b ->
  polar_total (num:=num) -> nth_error (c_params c) k = Some w -> In r (props c) -> belongs w r ->
  reached junk c o ->
  forall q1 q2 q3 q4, isOk (fst (callm junk c n_set_momenta [GMom q1; GMom q2; GMom q3; GMom q4] o)) = true ->
  exists x P, In (x, KC) (c_members c) /\ channel q1 q2 q3 q4 P /\
    o_C (snd (callm junk c n_set_momenta [GMom q1; GMom q2; GMom q3; GMom q4] o)) x = denominator (o_R o r) P.
Proof.
  intros Hc EB HP Hk Hr Hw HR q1 q2 q3 q4 HOk.
  pose proof (check50_c c b Hc EB k w r Hk Hr Hw) as K. unfold check_width in K. rewrite (belongsb_ok _ _ Hw) in K.
  apply andb_prop in K as [_ K]. destruct (shape_c c Hc) as (b' & EB' & HM & HA). rewrite EB in EB'. injection EB' as <-.
  destruct (reached_twin junk c b o Hc EB HM HR) as (HS & _ & o0 & vT & vR & HAg).
  destruct (HAg [q1; q2; q3; q4]) as (A & _).
  change [GMom q1; GMom q2; GMom q3; GMom q4] with (map GMom [q1; q2; q3; q4]) in *.
  destruct (given_state c (dyn_mask c) b (argless_list c) HP (takes_c c Hc) HA (fun _ _ => c0) junk vT vR o o0 [q1; q2; q3; q4] eq_refl HS A HOk)
    as (b1 & Eb & D & HO).
  pose proof (proj1 (forallb_forall _ _) K (pat_of (ext_of o0 [q1; q2; q3; q4] [])) (all_pats_in _ _ _ _)) as K2.
  unfold enters in K2. rewrite Eb in K2. apply existsb_exists in K2 as ((x & kd) & Hx & K2). cbn [fst snd] in K2.
  destruct kd; try discriminate K2. destruct (b_C b1 x) as [y|] eqn:Ey; [|discriminate K2].
  destruct (holds_den_ok vT vR o0 [q1; q2; q3; q4] r y eq_refl K2) as (P & HC & ED).
  exists x, P. split; [exact Hx|]. split; [exact HC|].
  pose proof (or_C _ _ _ _ _ _ _ HO x y Ey) as E1. unfold RCs in E1. rewrite E1, ED.
  rewrite <- (ag_R _ _ _ _ _ _ A r (props_known c r Hr)). reflexivity.
Qed.

(** C50, where it holds: the width given to the constructor is the width of the propagator,
    after any calls (set_v apart), and set_momenta stores the denominator of that propagator
    for one of the channels. *)
Theorem C50_widths_partial :
  forall c, In c sm_classes ->
  forall k w r, nth_error (c_params c) k = Some w -> In r (props c) -> belongs w r -> drops c w = false ->
  forall (num : Num) (junk : id -> nat -> T num) params o, construct junk c params = (Ok tt, o) ->
  (forall h, forallb not_set_v h = true -> Some (pr_w (o_R (snd (orun junk c h o)) r)) = nth_error params k) /\
  (polar_total (num:=num) ->
   forall o1, reached junk c o1 ->
   forall q1 q2 q3 q4, isOk (fst (callm junk c n_set_momenta [GMom q1; GMom q2; GMom q3; GMom q4] o1)) = true ->
   exists x P, In (x, KC) (c_members c) /\ channel q1 q2 q3 q4 P /\
     o_C (snd (callm junk c n_set_momenta [GMom q1; GMom q2; GMom q3; GMom q4] o1)) x = denominator (o_R o1 r) P).
Proof.
  intros c Hc k w r Hk Hr Hw HD num junk params o EC. destruct (shape_c c Hc) as (b & EB & _ & _). split.
  - intros h Hh. rewrite (widths_kept junk c h o r Hc Hh).
    pose proof (check50_c c b Hc EB k w r Hk Hr Hw) as K. unfold check_width in K. rewrite (belongsb_ok _ _ Hw), HD in K.
    apply andb_prop in K as [K _]. destruct (b_R b r) as [pr|] eqn:Er; [|discriminate K].
    destruct (construct_shape junk c params o b EC EB) as (D & HO).
    destruct (or_R _ _ _ _ _ _ _ HO r pr Er) as [_ E]. rewrite E. destruct (pr_w pr); try discriminate K.
    destruct k0; try discriminate K. apply Nat.eqb_eq in K. subst. cbn.
    assert (HL : k < length params).
    { rewrite (construct_len junk c params o EC). apply nth_error_Some. congruence. }
    symmetry. apply nth_error_nth'. exact HL.
  - intros HP o1 HR. eapply width_enters; eauto.
Qed.
Print Assumptions C50_widths_partial.

(** ** The classes of [widthless] *)
(** an expression in the parameters other than the [k]-th *)
Fixpoint without (k : nat) (y : sT) : bool :=
  match y with
  | TInt _ | TofD _ => true
  | TOp _ x y => without k x && without k y
  | TNeg x | TSqr x | TPw x => without k x
  | TAt (APar j) => negb (Nat.eqb j k)
  | _ => false
  end.
Definition noWZ_mask (c : cls) : mask :=
  mkMask (fun x => Pos.eqb x n_WZ || k_T (dyn_mask c) x) (k_R (dyn_mask c)) (fun _ => false).
Definition indifferent (c : cls) (b : pobj snum) (k : nat) : bool :=
  forallb (fun x => negb (known (noWZ_mask c) b x) || match b_T b x with Some y => without k y | None => false end) (members c) &&
  forallb (fun r => match b_R b r with Some pr => without k (pr_m pr) && without k (pr_w pr) | None => false end) (props c) &&
  match b_P b with
  | [(Some y0, _); (Some y1, _); (Some y2, _); (Some y3, _)] => without k y0 && without k y1 && without k y2 && without k y3
  | _ => false
  end &&
  forallb (answers c (noWZ_mask c) b (argless_list c)) all_pats.
Definition check_dropped (c : cls) : bool :=
  if drops c n_widthZ then
    existsb (Pos.eqb n_widthZ) (c_params c) && existsb (Pos.eqb n_propZ) (props c) &&
    match shape c, index n_widthZ (c_params c) with
    | POk b, Some k => indifferent c b k
    | _, _ => false
    end
  else true.
Lemma sm_check_dropped : forallb check_dropped sm_classes = true.
Proof. vm_cast_no_check (eq_refl true). Qed.
Lemma index_nth x : forall l k, index x l = Some k -> nth_error l k = Some x.
Proof.
  induction l as [|y l IH]; intros k; cbn [index]; [discriminate|].
  destruct (Pos.eqb_spec x y) as [->|]; [intros [= <-]; reflexivity|].
  destruct (index x l) as [j|]; [|discriminate]. intros [= <-]. cbn. apply IH. reflexivity.
Qed.

Fixpoint distinct (l : list id) : bool :=
  match l with [] => true | x :: l' => negb (existsb (Pos.eqb x) l') && distinct l' end.
Lemma distinct_nth : forall l, distinct l = true -> forall k j x, nth_error l k = Some x -> nth_error l j = Some x -> j = k.
Proof.
  induction l as [|y l IH]; cbn [distinct]; intros H k j x Hk Hj; [destruct k; discriminate Hk|].
  apply andb_prop in H as [H1 H2]. apply negb_true_iff in H1.
  assert (N : forall i, nth_error l i = Some y -> False).
  { intros i Hi. apply nth_error_In in Hi. assert (E : existsb (Pos.eqb y) l = true); [|congruence].
    apply existsb_exists. exists y. split; [exact Hi|apply Pos.eqb_refl]. }
  destruct k as [|k], j as [|j]; cbn in Hk, Hj; auto.
  - injection Hk as ->. exfalso. eapply N, Hj.
  - injection Hj as ->. exfalso. eapply N, Hk.
  - f_equal. eapply IH; eauto.
Qed.
Lemma sm_distinct : forallb (fun c => distinct (c_params c)) sm_classes = true.
Proof. vm_cast_no_check (eq_refl true). Qed.

(** C50 is false of them: the width of their Z propagator is 0, whatever widthZ is. *)
Theorem C50_width_dropped :
  forall c, In c sm_classes -> drops c n_widthZ = true ->
  In n_widthZ (c_params c) /\ In n_propZ (props c) /\
  forall (num : Num) (junk : id -> nat -> T num) params o, construct junk c params = (Ok tt, o) ->
  forall h, forallb not_set_v h = true -> pr_w (o_R (snd (orun junk c h o)) n_propZ) = tZ 0.
Proof.
  intros c Hc HD. pose proof (proj1 (forallb_forall _ _) sm_check_dropped c Hc) as K. unfold check_dropped in K. rewrite HD in K.
  apply andb_prop in K as [K _]. apply andb_prop in K as [K1 K2].
  apply existsb_exists in K1 as (w & H1 & E1). apply Pos.eqb_eq in E1. subst w.
  apply existsb_exists in K2 as (r & H2 & E2). apply Pos.eqb_eq in E2. subst r.
  split; [exact H1|]. split; [exact H2|]. intros num junk params o EC h Hh.
  destruct (shape_c c Hc) as (b & EB & _ & _). rewrite (widths_kept junk c h o _ Hc Hh).
  destruct (In_nth_error _ _ H1) as (k & Hk).
  assert (HB : belongs n_widthZ n_propZ) by (right; left; auto).
  pose proof (check50_c c b Hc EB k _ _ Hk H2 HB) as K. unfold check_width in K. rewrite (belongsb_ok _ _ HB), HD in K.
  apply andb_prop in K as [K _]. destruct (b_R b n_propZ) as [pr|] eqn:Er; [|discriminate K].
  destruct (construct_shape junk c params o b EC EB) as (D & HO).
  destruct (or_R _ _ _ _ _ _ _ HO _ pr Er) as [_ E]. rewrite E. destruct (pr_w pr); try discriminate K.
  destruct z; try discriminate K. reflexivity.
Qed.
Print Assumptions C50_width_dropped.

(** Moreover the width has no effect at all: objects constructed with different values of
    widthZ give the same amp2 (or throw the same) for all momenta. *)
Theorem C50_width_without_effect :
  forall c, In c sm_classes -> drops c n_widthZ = true ->
  forall num : Num, polar_total (num:=num) ->
  forall (junk : id -> nat -> T num) params params' o o',
    (forall k w, nth_error (c_params c) k = Some w -> w <> n_widthZ -> nth_error params k = nth_error params' k) ->
    construct junk c params = (Ok tt, o) -> construct junk c params' = (Ok tt, o') ->
  forall q1 q2 q3 q4,
    let given o := callm junk c n_set_momenta [GMom q1; GMom q2; GMom q3; GMom q4] o in
    fst (given o) = fst (given o') /\
    (isOk (fst (given o)) = true -> forall m, argless c m ->
       fst (callm junk c m [] (snd (given o))) = fst (callm junk c m [] (snd (given o')))).
Proof.
  intros c Hc HD num HP junk params params' o o' HE EC EC' q1 q2 q3 q4. cbn zeta.
  pose proof (proj1 (forallb_forall _ _) sm_check_dropped c Hc) as K. unfold check_dropped in K. rewrite HD in K.
  apply andb_prop in K as [_ K]. destruct (shape_c c Hc) as (b & EB & HM & _). rewrite EB in K.
  destruct (index n_widthZ (c_params c)) as [k|] eqn:Ek; [|discriminate K]. apply index_nth in Ek.
  apply andb_prop in K as [K HA]. apply andb_prop in K as [K K3]. apply andb_prop in K as [K1 K2].
  rewrite forallb_forall in K1, K2.
  assert (SAME : forall y, without k y = true -> denT (rT0 junk params) rC0 y = denT (rT0 junk params') rC0 y).
  { induction y; cbn [without denT]; intros H; try discriminate H; try reflexivity;
      rewrite ?andb_true_iff in H; rewrite ?IHy, ?IHy1, ?IHy2 by tauto; try reflexivity.
    destruct k0 as [| | | | |j|]; try discriminate H. cbn [rT0].
    destruct (nth_error (c_params c) j) as [w|] eqn:Ej.
    - assert (Hw : nth_error params j = nth_error params' j).
      { destruct (Pos.eq_dec w n_widthZ) as [->|Hw]; [|exact (HE j w Ej Hw)].
        exfalso. apply negb_true_iff, Nat.eqb_neq in H. apply H.
        exact (distinct_nth _ (proj1 (forallb_forall _ _) sm_distinct c Hc) k j n_widthZ Ek Ej). }
      pose proof (construct_len junk c params o EC) as L1. pose proof (construct_len junk c params' o' EC') as L2.
      assert (Hj : j < length (c_params c)) by (apply nth_error_Some; congruence).
      assert (H1 : j < length params) by (rewrite L1; exact Hj). assert (H2 : j < length params') by (rewrite L2; exact Hj).
      rewrite (nth_error_nth' params (tZ 0) H1), (nth_error_nth' params' (tZ 0) H2) in Hw. congruence.
    - apply nth_error_None in Ej. rewrite !nth_overflow; [reflexivity| |].
      + rewrite (construct_len junk c params' o' EC'). exact Ej.
      + rewrite (construct_len junk c params o EC). exact Ej. }
  destruct (construct_shape junk c params o b EC EB) as (D1 & R1).
  destruct (construct_shape junk c params' o' b EC' EB) as (D2 & R2).
  assert (S1 : shaped b o) by (eapply construct_shaped; eauto).
  assert (S2 : shaped b o') by (eapply construct_shaped; eauto).
  assert (HT : twin (noWZ_mask c) b o o').
  { split; [exact S1|]. split; [exact S2|]. exists o, (fun x => cval (o_T o x)), (o_R o). intros q.
    assert (VT : forall x, known (noWZ_mask c) b x = true -> exists v, o_T o x = Val v /\ o_T o' x = Val v).
    { intros x Hx.
      assert (Hm : In x (members c)).
      { apply (known_member c b). apply andb_prop in Hx as [H1 H2]. unfold known. rewrite H2, andb_true_r.
        apply negb_true_iff in H1. apply negb_true_iff. cbn in H1. apply orb_false_iff in H1. apply H1. }
      specialize (K1 x Hm). rewrite Hx in K1. cbn [negb orb] in K1. destruct (b_T b x) as [y|] eqn:Ey; [|discriminate K1].
      destruct (or_T _ _ _ _ _ _ _ R1 x y Ey) as (v1 & V1 & W1). destruct (or_T _ _ _ _ _ _ _ R2 x y Ey) as (v2 & V2 & W2).
      exists v1. split; [exact V1|]. rewrite V2. f_equal. unfold RTs in *. specialize (SAME y K1). congruence. }
    split; [apply agrees_self; [exact S1|]; intros x Hx; destruct (VT x Hx) as (v & Ev & _); eauto|].
    constructor.
    - intros x Hx. destruct (VT x Hx) as (v & Ev & Ev'). rewrite Ev, Ev'. reflexivity.
    - intros r Hr. cbn in Hr. apply negb_false_iff in Hr. specialize (K2 r (memb_in _ _ Hr)).
      destruct (b_R b r) as [pr|] eqn:Ey; [|discriminate K2]. apply andb_prop in K2 as [F1 F2].
      destruct (or_R _ _ _ _ _ _ _ R1 r pr Ey) as (A1 & A2). destruct (or_R _ _ _ _ _ _ _ R2 r pr Ey) as (B1 & B2).
      pose proof (SAME _ F1). pose proof (SAME _ F2).
      unfold RTs in *. destruct (o_R o r) as [m1 w1], (o_R o' r) as [m2 w2]; cbn in *. congruence.
    - intros p Hp. destruct (sh_m _ _ S2 p Hp) as (P2 & m2 & F2 & G2). exists P2. split; [exact F2|].
      assert (EM : exists y q, nth_error (b_P b) p = Some (Some y, q) /\ without k y = true).
      { destruct (b_P b) as [|[[y0|] z0] [|[[y1|] z1] [|[[y2|] z2] [|[[y3|] z3] [|]]]]]; try discriminate K3.
        repeat (apply andb_prop in K3 as [K3 ?]).
        do 4 (destruct p as [|p]; [cbn; eexists; eexists; split; [reflexivity|assumption]|]). lia. }
      destruct EM as (y & q' & Ey & Fy). specialize (SAME y Fy).
      destruct (or_M _ _ _ _ _ _ _ R1 p y q' Ey) as (X1 & v1 & A1 & A2 & A3).
      destruct (or_M _ _ _ _ _ _ _ R2 p y q' Ey) as (X2 & v2 & B1 & B2 & B3).
      cbn. unfold omass. rewrite Nat.min_l by lia. rewrite A1, A2. cbn [cval]. rewrite F2 in B1. injection B1 as <-. rewrite B2.
      f_equal. unfold RTs in *. congruence. }
  destruct (twins c (noWZ_mask c) b (argless_list c) HP (takes_c c Hc) HA junk junk o o' [q1; q2; q3; q4] HT eq_refl) as [G1 G2].
  split; [exact G1|]. intros HOk m Hm. exact (G2 HOk [] [] eq_refl eq_refl m (argless_in c m Hm)).
Qed.
Print Assumptions C50_width_without_effect.

Theorem C50_refuted :
  forall c, In c sm_classes -> drops c n_widthZ = true ->
  exists (params : list (T XN)) k o, nth_error (c_params c) k = Some n_widthZ /\ In n_propZ (props c) /\
    construct junk0 c params = (Ok tt, o) /\ Some (pr_w (o_R o n_propZ)) <> nth_error params k.
Proof.
  intros c Hc HD. destruct (C50_width_dropped c Hc HD) as (H1 & H2 & H3).
  destruct (In_nth_error _ _ H1) as (k & Hk). set (params := map (fun _ => fr2 : T XN) (c_params c)).
  destruct (C42_members_partial c Hc XN eq_refl junk0 junk0 params (map_length _ _)) as (o & _ & EC & _).
  exists params, k, o. split; [exact Hk|]. split; [exact H2|]. split; [exact EC|].
  pose proof (H3 XN junk0 params o EC [] eq_refl) as E. cbn [orun snd] in E. rewrite E.
  unfold params. rewrite nth_error_map, Hk. cbn [option_map]. intros F.
  assert (G : option_map finite_nonzero (Some (tZ (n:=XN) 0)) = option_map finite_nonzero (Some fr2)) by (f_equal; exact F).
  vm_compute in G. discriminate G.
Qed.
Print Assumptions C50_refuted.

(** The widths of the statement exist: 96 classes take some for a propagator they have, 31
    drop widthZ. *)
Lemma C50_counts :
  (length (filter (fun c => existsb (fun w => existsb (belongsb w) (props c)) (c_params c)) sm_classes),
   length (filter (fun c => drops c n_widthZ) sm_classes)) = (96, 31).
Proof. vm_cast_no_check (eq_refl (96, 31)). Qed.
(** In eeWW the width of the Higgs boson arrives, and momenta are accepted: masses 12 (e),
    125 (h), 80 (W), momenta of 200. *)
Definition ex50 : outcome unit * obj XN := fbuild eeWW [1; 12; 125; 3; 80; 3 # 5; 2]%Q.
Example C50_example :
  In eeWW sm_classes /\ nth_error (c_params eeWW) 3 = Some n_widthh /\ In n_proph (props eeWW) /\
  belongs n_widthh n_proph /\ drops eeWW n_widthh = false /\ isOk (fst ex50) = true /\
  isOk (fst (fmomenta eeWW (fkin (fz 12) (fz 12) (fz 80) (fz 80) (fz 200)) (snd ex50))) = true.
Proof.
  refine (conj _ (conj eq_refl (conj _ (conj _ (conj eq_refl (conj _ _)))))).
  - unfold sm_classes. rewrite !in_app_iff. cbn. tauto.
  - cbn. tauto.
  - right. right. auto.
  - vm_cast_no_check (eq_refl true).
  - vm_cast_no_check (eq_refl true).
Qed.
