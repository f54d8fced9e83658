(** * Construction of process objects: C42 *)
From Coq Require Import Reals QArith String Ascii Lia.
From Verif Require Import Base Scalar RealNum Linear Integers Particle Sproduct Propagator Process
  ParticleProofs Ready ParticleClaims SpecSproduct WorldProofs Lang LangFrame Pure PureProofs ReadOnly Sym SMNames
  SMRun SMTwins SMMasses SMAll SMChecks IEEE SMFloat PropsClasses SM05 SM06.
Close Scope Q_scope.
Close Scope R_scope.
Open Scope st_scope.

(** The constructor creates a spin product with internal momenta. *)
Fixpoint makes_chain (s : stmt) : bool :=
  match s with
  | SSprod _ _ _ (_ :: _) _ => true
  | SSeq s1 s2 | SIf _ s1 s2 => makes_chain s1 || makes_chain s2
  | SFor _ _ _ _ s1 => makes_chain s1
  | _ => false
  end.
Definition chained (c : cls) : bool :=
  existsb (fun i => match snd i with NSprod _ _ (_ :: _) _ => true | _ => false end) (c_inits c) ||
  makes_chain (c_body c).
Definition is_dddd (c : cls) : bool := String.eqb (c_name c) "dddd".

(** ** The checks *)
(** construction; [weak]: internal momenta may be missing, and what was in memory may be read *)
Definition Qn (weak : bool) : oracle snum :=
  sym_oracle (fun _ => None) (fun _ _ => false) weak (fun x => if weak then Some (TAt (AJunk x)) else None).
Definition built (weak : bool) (c : cls) : pres (pobj snum) := pconstruct (Qn weak) c (pars c).
Definition no_mask : mask := mkMask (fun _ => false) (fun _ => false) (fun _ => false).
Definition clean (y : sT) : bool := fine no_mask y.     (* an expression in the parameters alone *)
(** members with a value after construction: all that have an initialiser or are assigned in
    the constructor *)
Definition settled (b : pobj snum) (m : id * mkind) : bool :=
  match snd m with
  | KT => match b_T b (fst m) with Some y => clean y | None => false end
  | KProp => match b_R b (fst m) with Some r => clean (pr_m r) && clean (pr_w r) | None => false end
  | KSprod => match b_S b (fst m) with Some _ => true | None => false end
  | KC => true
  | KPart p => match nth_error (b_P b) p with Some (Some y, _) => clean y | _ => false end
  end.
Fixpoint assigns (m : id * mkind) (s : stmt) : bool :=
  match s, snd m with
  | SMemT y _, KT => Pos.eqb (fst m) y
  | SSeq s1 s2, _ => assigns m s1 || assigns m s2
  | SParticle p _, KPart p' => Nat.eqb p p'
  | SSprod y _ _ _ _, KSprod => Pos.eqb (fst m) y
  | _, _ => false
  end.
(** has an initialiser or a default constructor, or is assigned in the body *)
Definition initialised (c : cls) (m : id * mkind) : bool :=
  match find_init (c_inits c) (fst m), snd m with
  | Some _, _ | None, KProp => true
  | None, _ => assigns m (c_body c)
  end.

Definition check42 (c : cls) : bool :=
  (if chained c || is_dddd c then true else match built false c with POk _ => true | _ => false end) &&
  match built true c with
  | POk b => forallb (fun m => if initialised c m then settled b m else true) (c_members c)
  | _ => false
  end.
Lemma sm_check42 : forallb check42 sm_classes = true.
Proof. vm_cast_no_check (eq_refl true). Qed.

Section Construct.
  Context {num : Num}.
  Variable junk : id -> nat -> T num.
  Variable c : cls.
  Lemma construct_built weak params b : (weak = true -> strict num = false) ->
    length params = length (c_params c) -> built weak c = POk b ->
    exists o, construct junk c params = (Ok tt, o) /\ OR true (RTs (rT0 junk params) rC0) (RCs (rT0 junk params) rC0) (Qn weak) o b.
  Proof.
    intros HS HL EB.
    assert (HQ : oracle_ok true (RTs (rT0 junk params) rC0) (RCs (rT0 junk params) rC0) (Qn weak)).
    { apply sym_ok; [discriminate|intros _; exact HS|discriminate]. }
    assert (HJ : forall x y, q_junk (Qn weak) x = Some y -> (true = true -> strict num = false) /\ RTs (rT0 junk params) rC0 (junk x 0) y).
    { intros x y. cbn [Qn sym_oracle q_junk]. destruct weak; [|discriminate]. intros [= <-]. split; [intros _; apply HS; reflexivity|reflexivity]. }
    pose proof (construct_ref true _ _ _ (sym_hom (rT0 junk params) rC0) (Qn weak) HQ junk c HJ params (pars c) (pars_den junk c params HL)) as K.
    fold (built weak c) in K. rewrite EB in K. unfold REF in K.
    destruct (construct junk c params) as [[[]|e|u] o]; try discriminate K. exists o. split; [reflexivity|exact K].
  Qed.
End Construct.

Lemma check42_c c : In c sm_classes -> check42 c = true.
Proof. intros Hc. exact (proj1 (forallb_forall _ _) sm_check42 c Hc). Qed.

(** C42, the classes it holds for: without internal momenta in the products, and except
    dddd, construction reads no indeterminate value, whatever the parameters (the result
    would be [UB ReadIndeterminate] in the strict reading). *)
Theorem C42_initialised_partial :
  forall c, In c sm_classes -> chained c = false -> is_dddd c = false ->
  forall (num : Num) (junk : id -> nat -> T num) (params : list (T num)), length params = length (c_params c) ->
    fst (construct junk c params) = Ok tt.
Proof.
  intros c Hc H1 H2 num junk params HL. pose proof (check42_c c Hc) as K. apply andb_prop in K as [K _].
  rewrite H1, H2 in K. cbn [orb] in K. destruct (built false c) as [|e|b] eqn:EB; try discriminate K.
  destruct (construct_built junk c false params b ltac:(discriminate) HL EB) as (o & -> & _). reflexivity.
Qed.
Print Assumptions C42_initialised_partial.

(** C42 for the data members of the process classes proper: if the indeterminate values may
    be read, construction always succeeds, and no member, propagator or mass of the finished
    object depends on what was in memory before. *)
Theorem C42_members_partial :
  forall c, In c sm_classes ->
  forall num : Num, strict num = false ->
  forall (junk junk' : id -> nat -> T num) (params : list (T num)), length params = length (c_params c) ->
  exists o o',
    construct junk c params = (Ok tt, o) /\ construct junk' c params = (Ok tt, o') /\
    forall x kind, In (x, kind) (c_members c) -> initialised c (x, kind) = true ->
      match kind with
      | KT => exists v, o_T o x = Val v /\ o_T o' x = Val v
      | KProp => o_R o x = o_R o' x
      | KPart p => exists P P' m, nth_error (o_heap o) p = Some P /\ nth_error (o_heap o') p = Some P' /\
                                  pa_m P = Val m /\ pa_m P' = Val m
      | KSprod => sp_L (o_S o x) = sp_L (o_S o' x) /\ sp_R (o_S o x) = sp_R (o_S o' x) /\
                  sp_mid (o_S o x) = sp_mid (o_S o' x) /\ sp_angle (o_S o x) = sp_angle (o_S o' x)
      | KC => True
      end.
Proof.
  intros c Hc num HS junk junk' params HL. pose proof (check42_c c Hc) as K. apply andb_prop in K as [_ K].
  destruct (built true c) as [|e|b] eqn:EB; try discriminate K.
  destruct (construct_built junk c true params b (fun _ => HS) HL EB) as (o & E1 & D1 & R1).
  destruct (construct_built junk' c true params b (fun _ => HS) HL EB) as (o' & E2 & D2 & R2).
  assert (SAME : forall y, clean y = true -> denT (rT0 junk params) rC0 y = denT (rT0 junk' params) rC0 y).
  { apply fine_den. intros [] Ha; try discriminate Ha; reflexivity. }
  exists o, o'. split; [exact E1|]. split; [exact E2|]. intros x kind Hx Hi.
  pose proof (proj1 (forallb_forall _ _) K (x, kind) Hx) as M. cbv beta in M. rewrite Hi in M. unfold settled in M. cbn [fst snd] in M.
  destruct kind as [| | | |p]; auto.
  - destruct (b_T b x) as [y|] eqn:Ey; [|discriminate M].
    destruct (or_T _ _ _ _ _ _ _ R1 x y Ey) as (v1 & V1 & W1). destruct (or_T _ _ _ _ _ _ _ R2 x y Ey) as (v2 & V2 & W2).
    exists v1. split; [exact V1|]. rewrite V2. f_equal. unfold RTs in *. specialize (SAME y M). congruence.
  - destruct (b_R b x) as [y|] eqn:Ey; [|discriminate M].
    destruct (or_R _ _ _ _ _ _ _ R1 x y Ey) as (A1 & A2). destruct (or_R _ _ _ _ _ _ _ R2 x y Ey) as (B1 & B2).
    apply andb_prop in M as [M1 M2]. pose proof (SAME _ M1) as N1. pose proof (SAME _ M2) as N2.
    unfold RTs in *. destruct (o_R o x), (o_R o' x); cbn in *. congruence.
  - destruct (b_S b x) as [[t u]|] eqn:Ey; [|discriminate M].
    destruct (or_S _ _ _ _ _ _ _ R1 x t u Ey) as (S1 & _). destruct (or_S _ _ _ _ _ _ _ R2 x t u Ey) as (S2 & _).
    destruct S1 as (?&?&?&?&?), S2 as (?&?&?&?&?). repeat split; congruence.
  - destruct (nth_error (b_P b) p) as [[[y|] q]|] eqn:Ey; try discriminate M.
    destruct (or_M _ _ _ _ _ _ _ R1 p y q Ey) as (P1 & m1 & A1 & A2 & A3).
    destruct (or_M _ _ _ _ _ _ _ R2 p y q Ey) as (P2 & m2 & B1 & B2 & B3).
    exists P1, P2, m1. repeat split; auto. rewrite B2. f_equal. unfold RTs in *. specialize (SAME y M). congruence.
Qed.
Print Assumptions C42_members_partial.

(** set_masses then always returns too, so that the objects of C43 to C45 exist for every
    class, every parameters and every masses. *)
Definition Q0' : oracle snum := sym_oracle (fun _ => None) (fun _ _ => false) true (fun _ => None).
Definition setm' (c : cls) (b : pobj snum) : pres (option (ret snum) * pobj snum) :=
  pmethod (Q0') c (pinner (Q0') c) n_set_masses (sargs (length (sm_params c))) (jobj (open_mask c) b).
Definition check42m (c : cls) : bool :=
  match find_meth c n_set_masses with
  | None => true
  | Some _ => match shape c with
              | POk b => match setm' c b with POk _ => true | _ => false end
              | _ => false
              end
  end.
Lemma sm_check42m : forallb check42m sm_classes = true.
Proof. vm_cast_no_check (eq_refl true). Qed.
Theorem C42_set_masses_returns :
  forall c f, In c sm_classes -> find_meth c n_set_masses = Some f ->
  forall num : Num, strict num = false ->
  forall (junk : id -> nat -> T num) params o h, construct junk c params = (Ok tt, o) -> forallb not_set_v h = true ->
  forall masses : list (T num), length masses = length (m_params f) ->
    isOk (fst (callm junk c n_set_masses (map GT masses) (snd (orun junk c h o)))) = true.
Proof.
  intros c f Hc Hf num HS junk params o h EC Hh a HLa.
  destruct (shape_c c Hc) as (b & EB & HM & _). destruct (setm_c c Hc b f Hf EB) as (HSig & _).
  pose proof (proj1 (forallb_forall _ _) sm_check42m c Hc) as K. unfold check42m in K. rewrite Hf, EB in K.
  assert (HSh : shaped b o) by (eapply construct_shaped; eauto).
  pose proof (like_history_m junk c h o Hc Hh) as HLk. set (o1 := snd (orun junk c h o)) in *.
  pose proof (shaped_like _ b o o1 HSh HLk) as HSo.
  assert (HA : agrees (open_mask c) b (fun x => cval (o_T o x)) (o_R o1) (ext_of o1 [] a) o1).
  { constructor.
    - intros x Hx. destruct (construct_known junk c (mass_mask c) params o b x EC EB Hx) as (v & Ev).
      apply andb_prop in Hx as [Hx _]. apply negb_true_iff in Hx.
      rewrite (like_T _ _ _ HLk) by exact Hx. rewrite Ev. reflexivity.
    - reflexivity.
    - intros p Hp. destruct (sh_m _ _ HSo p Hp) as (P & m & E1 & E2). exists P. split; [exact E1|].
      cbn. unfold omass. rewrite Nat.min_l by lia. rewrite E1, E2. reflexivity. }
  pose proof (before_OR _ b _ _ _ (fun _ _ => c0) true (Q0') o1 (fun _ => eq_refl) HSo HA) as HO.
  fold (at_masses o o1 a) in HO.
  assert (HQ : oracle_ok true (RTs (at_masses o o1 a) (fun _ _ => c0)) (RCs (at_masses o o1 a) (fun _ _ => c0)) (Q0')).
  { apply sym_ok; [discriminate|intros _ _; exact HS|discriminate]. }
  assert (HLen : length a = length (sm_params c)) by (unfold sm_params; rewrite Hf, map_length; exact HLa).
  assert (HArg : Forall2 (Rarg (RTs (at_masses o o1 a) (fun _ _ => c0))) (map GT a) (sargs (length (sm_params c)))).
  { unfold sargs. rewrite <- HLen. apply (sargs_den _ _ a []). intros j. reflexivity. }
  pose proof (method_ref true _ _ _ (sym_hom (at_masses o o1 a) (fun _ _ => c0)) (Q0') HQ junk c n_set_masses _ _ o1 _ HArg HO) as M.
  unfold setm' in K. destruct (pmethod _ _ _ _ _ _) as [|e|[r' b2']]; try discriminate K. unfold REF in M.
  destruct (callm junk c n_set_masses (map GT a) o1) as [[r|e|u] o2]; try discriminate M. reflexivity.
Qed.
Print Assumptions C42_set_masses_returns.

(** ** The classes for which it fails *)
(** long double, with undefined behaviour reported *)
Definition SXN : Num := LD true lm_axis.
Definition halves (c : cls) : list (T SXN) := map (fun _ => fr2) (c_params c).
Definition unread (_ : id) (_ : nat) : T SXN := fz 77.
Definition reads_junk (c : cls) (params : list (T SXN)) : bool :=
  match fst (construct unread c params) with UB ReadIndeterminate => true | _ => false end.
Lemma sm_fails42 : forallb (fun c => if chained c || is_dddd c then reads_junk c (halves c) else true) sm_classes = true.
Proof. vm_cast_no_check (eq_refl true). Qed.
(** C42 is false for 94 classes.  93 of them build a spin product with internal momenta
    over particles that have no momentum yet (e.g. SM/eeAA.cpp:50: update() in the
    constructor of sproduct reads pxymag and phi); dddd reads a member before its turn. *)
Theorem C42_refuted :
  forall c, In c sm_classes -> chained c || is_dddd c = true ->
  exists params : list (T SXN), length params = length (c_params c) /\
    fst (construct unread c params) = UB ReadIndeterminate.
Proof.
  intros c Hc H. pose proof (proj1 (forallb_forall _ _) sm_fails42 c Hc) as K. cbv beta in K. rewrite H in K.
  exists (halves c). split; [apply map_length|]. unfold reads_junk in K.
  destruct (fst (construct unread c (halves c))) as [|e|[]]; try discriminate K. reflexivity.
Qed.
Print Assumptions C42_refuted.
(** how many on each side *)
Lemma C42_counts : (length sm_classes, length (filter (fun c => chained c || is_dddd c) sm_classes)) = (142%nat, 94%nat).
Proof. vm_cast_no_check (eq_refl (142%nat, 94%nat)). Qed.

(** The hypotheses: eemm with eight parameters in exact arithmetic, and eeAA, whose
    construction succeeds in the lenient reading but not in the strict one. *)
Example C42_example :
  In eemm sm_classes /\ chained eemm = false /\ is_dddd eemm = false /\ length (c_params eemm) = 8%nat /\
  fst (construct (num:=RN true 1) (fun _ _ => 0%R) eemm [1; 2; 3; 4; 5; 6; 1 / 2; 7]%R) = Ok tt /\
  reads_junk eeAA [fz 1; fz 2] = true /\ isOk (fst (construct junk0 eeAA [fz 1; fz 2])) = true.
Proof.
  assert (H : In eemm sm_classes) by (unfold sm_classes; rewrite !in_app_iff; cbn; tauto).
  refine (conj H (conj eq_refl (conj eq_refl (conj eq_refl (conj _ (conj _ _)))))).
  - apply C42_initialised_partial; [exact H|reflexivity..].
  - vm_cast_no_check (eq_refl true).
  - vm_cast_no_check (eq_refl true).
Qed.
