(** * set_masses is equivalent to rebuilding: C44 *)
From Coq Require Import Reals QArith Qreals String Lra Lia.
From Verif Require Import Base Scalar RealNum ParticleReal Linear Integers Particle Sproduct Propagator Process
  ParticleProofs Ready ParticleClaims SpecSproduct WorldProofs Lang LangFrame Pure PureProofs ReadOnly Sym SMNames
  SMRun SMTwins SMMasses SMAll SMChecks SMRebuild IEEE SMFloat PropsClasses SM06.
From Flocq Require Import BinarySingleNaN.
Close Scope Q_scope.
Close Scope R_scope.
Open Scope st_scope.

Definition named (l : list string) (c : cls) : bool := existsb (String.eqb (c_name c)) l.
(** where set_masses and a new construction differ *)
Definition stale : list string :=
  ["ZWWh"; "ZhWW"; "dAdh"; "dgdh"; "hgdd"; "hguu"; "uAuh"; "uguh"; "nWWn"; "nnWW"]%string.
(** where the formulas of set_masses and of the constructor are different but equal over the reals *)
Definition reworded : list string := ["ddWW"; "uuAh"]%string.

Lemma sm_rebuilt : forallb (fun c => named stale c || named reworded c || named ["gggg"%string] c || same_as_rebuilt [] c) sm_classes = true.
Proof. vm_cast_no_check (eq_refl true). Qed.
Lemma no_set_masses : forallb (fun c => negb (named ["gggg"%string] c) || match find_meth c n_set_masses with None => true | _ => false end) sm_classes = true.
Proof. vm_cast_no_check (eq_refl true). Qed.

(** One object has any history (without set_v), then set_masses(masses); another is
    constructed with those masses in place of the old ones, the parameters matched by name
    ([rebuilt]).  Given the same momenta, both end alike, and answer alike from then on. *)
Definition as_rebuilt (num : Num) (c : cls) : Prop :=
  forall (junk : id -> nat -> T num) (params masses : list (T num)) (o o1 o2 : obj num) r (h h1 h2 : list (ocall num)),
    construct junk c params = (Ok tt, o) -> forallb not_set_v h = true ->
    callm junk c n_set_masses (map GT masses) (snd (orun junk c h o)) = (Ok r, o1) ->
    construct junk c (rebuilt c params masses) = (Ok tt, o2) ->
    forallb no_setter h1 = true -> forallb no_setter h2 = true ->
  forall q1 q2 q3 q4 : mom num,
    let given o := callm junk c n_set_momenta [GMom q1; GMom q2; GMom q3; GMom q4] o in
    let g1 := given (snd (orun junk c h1 o1)) in
    let g2 := given (snd (orun junk c h2 o2)) in
    fst g1 = fst g2 /\
    (isOk (fst g1) = true ->
     forall rs1 rs2, forallb reading rs1 = true -> forallb reading rs2 = true ->
     forall m, argless c m ->
       fst (callm junk c m [] (snd (orun junk c rs1 (snd g1)))) =
       fst (callm junk c m [] (snd (orun junk c rs2 (snd g2))))).

Lemma has_set_masses {num : Num} (junk : id -> nat -> T num) c args o r o1 :
  callm junk c n_set_masses args o = (Ok r, o1) -> exists f, find_meth c n_set_masses = Some f.
Proof.
  intros E. destruct (find_meth c n_set_masses) as [f|] eqn:EF; [eauto|]. exfalso.
  unfold callm in E. change (run junk c 2 n_set_masses) with (fun args =>
    match find_meth c n_set_masses with Some f => invoke junk (run junk c 1) f args | None => slift (UB TypeMismatch) end) in E.
  cbn beta in E. rewrite EF in E. discriminate E.
Qed.
(** from the comparison of the formal results *)
Lemma as_rebuilt_if (num : Num) c exc : In c sm_classes -> polar_total (num:=num) -> literals num ->
  same_as_rebuilt exc c = true ->
  (forall b b2 (junk : id -> nat -> T num) params masses x y y2, shape c = POk b -> setm c b = POk b2 ->
     In x exc -> b_T b x = Some y -> b_T b2 x = Some y2 -> equal_terms c b junk params masses y y2) ->
  as_rebuilt num c.
Proof.
  intros Hc HP H4 HSame HX junk params masses o o1 o2 r h h1 h2 EC Hh E1 E2 H1 H2 q1 q2 q3 q4. cbn zeta.
  destruct (shape_c c Hc) as (b & EB & HM & HA).
  destruct (has_set_masses junk c _ _ _ _ E1) as (f & EF). destruct (setm_c c Hc b f EF EB) as (HSig & b2 & EB2 & _).
  assert (HOff : (length (c_params c) < off)%nat).
  { unfold same_as_rebuilt in HSame. apply andb_prop in HSame as [K _]. apply Nat.ltb_lt, K. }
  assert (HT : twin (dyn_mask c) b o1 o2).
  { eapply (rebuilt_twin c b b2 junk params masses o (snd (orun junk c h o)) o1 o2 EB HM EB2 HSig HOff EC
      (like_history_m junk c h o Hc Hh) r E1 E2 exc); eauto. apply mass_ok; [exact Hc|reflexivity]. }
  assert (HT' : twin (dyn_mask c) b (snd (orun junk c h1 o1)) (snd (orun junk c h2 o2))).
  { apply (twin_like _ _ o1 o2); [reflexivity|exact HT|apply like_history; assumption|apply like_history; assumption]. }
  destruct (twins c (dyn_mask c) b (argless_list c) HP (takes_c c Hc) HA junk junk _ _ [q1; q2; q3; q4] HT' eq_refl) as [K1 K2].
  split; [exact K1|]. intros HOk rs1 rs2 R1 R2 m Hm.
  apply K2; [exact HOk|apply reading_reads; assumption|apply reading_reads; assumption|apply argless_in, Hm].
Qed.

(** C44 for 129 classes, in every arithmetic in which the literals 3.0 and 4.0 are the
    integers 3 and 4.  Missing: the ten classes of [stale], where it is false, and the two
    of [reworded], where it holds over the reals (below). *)
Theorem C44_rebuilding_partial :
  forall c, In c sm_classes -> named stale c = false -> named reworded c = false ->
  forall num : Num, polar_total (num:=num) -> tD (dQ (n:=num) 3) = tZ 3 -> tD (dQ (n:=num) 4) = tZ 4 ->
  as_rebuilt num c.
Proof.
  intros c Hc Hs Hr num HP L3 L4. pose proof (proj1 (forallb_forall _ _) sm_rebuilt c Hc) as K. cbv beta in K.
  rewrite Hs, Hr in K. cbn [orb] in K. destruct (named ["gggg"%string] c) eqn:Eg; cbn [orb] in K.
  - pose proof (proj1 (forallb_forall _ _) no_set_masses c Hc) as G. cbv beta in G. rewrite Eg in G. cbn [negb orb] in G.
    intros junk params masses o o1 o2 r h h1 h2 EC Hh E1.
    destruct (has_set_masses junk c _ _ _ _ E1) as (f & EF). rewrite EF in G. discriminate G.
  - apply (as_rebuilt_if num c []); auto; [split; assumption|]. intros. contradiction.
Qed.
Print Assumptions C44_rebuilding_partial.

(** Over the reals also for the other two. *)
Definition reworded_members (c : cls) : list id :=
  if named ["ddWW"%string] c then [n_pred; n_preh] else [n_pre].
Lemma sm_reworded : forallb (fun c => negb (named reworded c) || same_as_rebuilt (reworded_members c) c) sm_classes = true.
Proof. vm_cast_no_check (eq_refl true). Qed.
Definition term_pairs (c : cls) : list (sT * sT) :=
  match shape c with
  | POk b => match setm c b with
    | POk b2 => flat_map (fun x => match b_T b x, b_T b2 x with
                                   | Some y, Some y2 => [(sub (as_new c) y, sub (as_old b) y2)]
                                   | _, _ => [] end) (reworded_members c)
    | _ => [] end
  | _ => []
  end.
Lemma sqrt2_half : (sqrt 2 * / 2 = / sqrt 2)%R.
Proof.
  assert (H : (sqrt 2 * sqrt 2 = 2)%R) by (apply sqrt_sqrt; lra).
  assert (P : (sqrt 2 <> 0)%R) by (intros E; rewrite E in H; lra).
  apply (Rmult_eq_reg_r (sqrt 2)); [|exact P]. rewrite Rinv_l by exact P.
  replace (sqrt 2 * / 2 * sqrt 2)%R with (sqrt 2 * sqrt 2 * / 2)%R by ring. rewrite H. field.
Qed.
Definition pairs : list (sT * sT) :=
  Eval vm_compute in flat_map term_pairs (filter (named reworded) sm_classes).
Lemma pairs_eq : flat_map term_pairs (filter (named reworded) sm_classes) = pairs.
Proof. vm_cast_no_check (eq_refl pairs). Qed.
Lemma pairs_equal st eps (rT : tatom -> T (RN st eps)) rC y y2 : In (y, y2) pairs ->
  denT (num:=RN st eps) rT rC y = denT (num:=RN st eps) rT rC y2.
Proof.
  intros [H|[H|[H|[]]]]; injection H as <- <-; cbn; unfold Q2R, Rdiv; cbn;
    rewrite ?Rinv_mult, ?Rinv_1, ?Rmult_1_r.
  - generalize (/ rT (APar 103%nat))%R (/ rT (APar 6%nat))%R. intros u v. field.
  - generalize (/ rT (APar 103%nat))%R (/ rT (APar 6%nat))%R. intros u v. field.
  - rewrite <- sqrt2_half. ring.
Qed.
Theorem C44_rebuilding_reals_partial :
  forall c, In c sm_classes -> named stale c = false ->
  forall st eps, as_rebuilt (RN st eps) c.
Proof.
  intros c Hc Hs st eps.
  assert (L : literals (RN st eps)) by (split; cbn; unfold Q2R; cbn; lra).
  destruct (named reworded c) eqn:Hr.
  2: { destruct L. apply C44_rebuilding_partial; auto using polar_real. }
  pose proof (proj1 (forallb_forall _ _) sm_reworded c Hc) as K. cbv beta in K. rewrite Hr in K. cbn [negb orb] in K.
  apply (as_rebuilt_if (RN st eps) c (reworded_members c)); auto using polar_real.
  intros b b2 junk params masses x y y2 EB EB2 Hx Ey Ey2. apply pairs_equal. rewrite <- pairs_eq.
  refine (proj2 (in_flat_map term_pairs (filter (named reworded) sm_classes) _) (ex_intro _ c (conj (proj2 (filter_In _ _ _) (conj Hc Hr)) _))).
  unfold term_pairs. rewrite EB, EB2. apply in_flat_map. exists x. split; [exact Hx|]. rewrite Ey, Ey2. left. reflexivity.
Qed.
Print Assumptions C44_rebuilding_reals_partial.

(** ** Examples and counterexamples in x87 extended arithmetic *)
(** The claim fails: with the parameters [old] and the masses [new], all calls return, and
    amp2 differs by more than a thousandth. *)
Definition fails_at (c : cls) (old new : list (T XN)) (p : F80) : Prop :=
  exists o o1 o2 r x y q1 q2 q3 q4,
    construct junk0 c old = (Ok tt, o) /\
    callm junk0 c n_set_masses (map GT new) o = (Ok r, o1) /\
    construct junk0 c (rebuilt c old new) = (Ok tt, o2) /\
    [q1; q2; q3; q4] = fkin (fmass o2 0) (fmass o2 1) (fmass o2 2) (fmass o2 3) p /\
    let given o := callm junk0 c n_set_momenta [GMom q1; GMom q2; GMom q3; GMom q4] o in
    isOk (fst (given o1)) = true /\ isOk (fst (given o2)) = true /\
    fst (callm junk0 c n_amp2 [] (snd (given o1))) = Ok (Some (RtT x)) /\
    fst (callm junk0 c n_amp2 [] (snd (given o2))) = Ok (Some (RtT y)) /\ far x y = true.
(** the same by evaluation *)
Definition compare (good : F80 -> F80 -> bool) (c : cls) (old new : list (T XN)) (p : F80) : bool :=
  match construct junk0 c old with
  | (Ok tt, o) =>
    match callm junk0 c n_set_masses (map GT new) o, construct junk0 c (rebuilt c old new) with
    | (Ok r, o1), (Ok tt, o2) =>
      match fkin (fmass o2 0) (fmass o2 1) (fmass o2 2) (fmass o2 3) p with
      | [q1; q2; q3; q4] =>
        match callm junk0 c n_set_momenta [GMom q1; GMom q2; GMom q3; GMom q4] o1,
              callm junk0 c n_set_momenta [GMom q1; GMom q2; GMom q3; GMom q4] o2 with
        | (Ok _, o1'), (Ok _, o2') =>
          match fst (callm junk0 c n_amp2 [] o1'), fst (callm junk0 c n_amp2 [] o2') with
          | Ok (Some (RtT x)), Ok (Some (RtT y)) => good x y
          | _, _ => false
          end
        | _, _ => false
        end
      | _ => false
      end
    | _, _ => false
    end
  | _ => false
  end.
Lemma compare_far c old new p : compare far c old new p = true -> fails_at c old new p.
Proof.
  unfold compare. intros H.
  destruct (construct junk0 c old) as [[[]| |] o] eqn:EC; try discriminate H.
  destruct (callm junk0 c n_set_masses (map GT new) o) as [[r| |] o1] eqn:E1; try discriminate H.
  destruct (construct junk0 c (rebuilt c old new)) as [[[]| |] o2] eqn:E2; try discriminate H.
  destruct (fkin (fmass o2 0) (fmass o2 1) (fmass o2 2) (fmass o2 3) p) as [|q1 [|q2 [|q3 [|q4 [|]]]]] eqn:EK; try discriminate H.
  destruct (callm junk0 c n_set_momenta [GMom q1; GMom q2; GMom q3; GMom q4] o1) as [[r1| |] o1'] eqn:G1; try discriminate H.
  destruct (callm junk0 c n_set_momenta [GMom q1; GMom q2; GMom q3; GMom q4] o2) as [[r2| |] o2'] eqn:G2; try discriminate H.
  destruct (fst (callm junk0 c n_amp2 [] o1')) as [[[x|]|]| |] eqn:F1; try discriminate H.
  destruct (fst (callm junk0 c n_amp2 [] o2')) as [[[y|]|]| |] eqn:F2; try discriminate H.
  exists o, o1, o2, r, x, y, q1, q2, q3, q4.
  split; [exact EC|]. split; [exact E1|]. split; [exact E2|]. split; [symmetry; exact EK|]. cbv beta zeta.
  rewrite G1, G2. cbn [fst snd isOk]. auto.
Qed.

Definition witnesses : list (string * list Q * list Q) :=
 [("ZWWh", [1; 10; 80; 3 # 5; 2; 2], [20; 90]);
  ("ZhWW", [1; 10; 80; 3 # 5; 2; 2], [20; 90]);
  ("dAdh", [1; 5; 12; 80; 3 # 5], [6; 14; 100]);
  ("dgdh", [1; 1; 5; 12; 80; 3 # 5], [6; 14; 100]);
  ("hgdd", [1; 1; 5; 12; 80; 3 # 5], [6; 14; 100]);
  ("hguu", [1; 1; 5; 12; 80; 3 # 5], [6; 14; 100]);
  ("uAuh", [1; 5; 12; 80; 3 # 5], [6; 14; 100]);
  ("uguh", [1; 1; 5; 12; 80; 3 # 5], [6; 14; 100]);
  ("nWWn", [1; 5; 80; 3 # 5; 2], [40; 90]);
  ("nnWW", [1; 5; 80; 3 # 5; 2], [40; 90])]%string%Q.
Definition check_witness (c : cls) (w : string * list Q * list Q) : bool :=
  if String.eqb (fst (fst w)) (c_name c) then compare far c (fnums (snd (fst w))) (fnums (snd w)) (fz 200) else true.
Lemma witnesses_ok : forallb (fun c => forallb (check_witness c) witnesses) sm_classes = true.
Proof. vm_cast_no_check (eq_refl true). Qed.
(** C44 is false for the ten classes of [stale]: ZWWh and ZhWW (the mass in propZ is never
    updated, SM/ZWWh.cpp:67), the six with a Yukawa coupling (massW is ignored, e.g.
    SM/dAdh.cpp:54), nWWn and nnWW (prope has mass 0 until set_masses, SM/nnWW.cpp:32,56). *)
Theorem C44_rebuilding_refuted :
  forall c, In c sm_classes -> named stale c = true -> exists old new p, fails_at c old new p.
Proof.
  intros c Hc Hs. pose proof (proj1 (forallb_forall _ _) witnesses_ok c Hc) as K. cbv beta in K.
  assert (HW : exists w, In w witnesses /\ String.eqb (fst (fst w)) (c_name c) = true).
  { unfold named in Hs. apply existsb_exists in Hs as (n & Hn & En). rewrite String.eqb_sym in En.
    assert (M : In n (map (fun w => fst (fst w)) witnesses)) by exact Hn.
    apply in_map_iff in M as (w & Ew & Hw). exists w. split; [exact Hw|]. rewrite Ew. exact En. }
  destruct HW as (w & Hw & Ew). pose proof (proj1 (forallb_forall _ _) K w Hw) as M. unfold check_witness in M.
  rewrite Ew in M.
  exists (fnums (snd (fst w))), (fnums (snd w)), (fz 200). apply compare_far, M.
Qed.
Print Assumptions C44_rebuilding_refuted.
Lemma stale_exist : map c_name (filter (named stale) sm_classes) =
  ["ZWWh"; "ZhWW"; "dAdh"; "dgdh"; "hgdd"; "hguu"; "nWWn"; "nnWW"; "uAuh"; "uguh"]%string.
Proof. vm_cast_no_check (eq_refl ["ZWWh"; "ZhWW"; "dAdh"; "dgdh"; "hgdd"; "hguu"; "nWWn"; "nnWW"; "uAuh"; "uguh"]%string). Qed.

(** The hypotheses of C44_rebuilding_partial are met by eemm: new masses 5, 12, 30, 90
    instead of 12, 5, 20, 80.  Both values of amp2 are finite, and equal. *)
Example C44_example :
  literals XN /\ polar_total (num:=XN) /\
  In eemm sm_classes /\ named stale eemm = false /\ named reworded eemm = false /\
  compare (fun x y => finite_nonzero x && negb (far x y) && negb (far y x)) eemm (fnums ex_params) (fnums ex_masses) (fz 20) = true.
Proof.
  refine (conj _ (conj _ (conj _ (conj eq_refl (conj eq_refl _))))).
  - split; apply (B2SF_inj 64 16384); vm_compute; reflexivity.
  - apply polar_lenient. reflexivity.
  - unfold sm_classes. rewrite !in_app_iff. cbn. tauto.
  - vm_cast_no_check (eq_refl true).
Qed.
