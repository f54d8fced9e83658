(** * Lemmas behind C40, C41 and C52 *)
From Coq Require Import QArith.
From Verif Require Import Base Scalar Integers Utilities Harness.
Close Scope Q_scope.
Open Scope st_scope.

(** Invariant rules for loops. *)
Lemma sfor_inv {S A} (I : nat -> A -> S -> Prop) (body : nat -> A -> ST S A) n : forall lo a s b s',
  sfor lo n body a s = (Ok b, s') -> I lo a s ->
  (forall i a s a' s', (lo <= i < lo + n)%nat -> I i a s -> body i a s = (Ok a', s') -> I (Datatypes.S i) a' s') ->
  I (lo + n)%nat b s'.
Proof.
  induction n as [|n IH]; intros lo a s b s' E H HS; cbn [sfor] in E.
  - injection E as <- <-. rewrite Nat.add_0_r. exact H.
  - apply sbind_Ok_inv in E. destruct E as (a1 & s1 & E1 & E2).
    replace (lo + Datatypes.S n)%nat with (Datatypes.S lo + n)%nat by lia.
    apply (IH (Datatypes.S lo) a1 s1); [exact E2| |].
    + apply (HS lo a s); [lia|exact H|exact E1].
    + intros i. intros. apply (HS i a0 s0); [lia|assumption|assumption].
Qed.
(** how a loop fails *)
Lemma sfor_fail {S A} (I : nat -> A -> S -> Prop) (body : nat -> A -> ST S A) n : forall lo a s r s',
  sfor lo n body a s = (r, s') -> (forall b, r <> Ok b) -> I lo a s ->
  (forall i a s a' s', (lo <= i < lo + n)%nat -> I i a s -> body i a s = (Ok a', s') -> I (Datatypes.S i) a' s') ->
  exists i a1 s1, (lo <= i < lo + n)%nat /\ I i a1 s1 /\ body i a1 s1 = (r, s').
Proof.
  induction n as [|n IH]; intros lo a s r s' E N H HS; cbn [sfor] in E.
  - injection E as <- <-. destruct (N a eq_refl).
  - unfold sbind in E. destruct (body lo a s) as [[a1|e|u] s1] eqn:EB.
    + destruct (IH (Datatypes.S lo) a1 s1 r s' E N) as (i & a2 & s2 & Hi & HI & EE).
      * apply (HS lo a s); [lia|exact H|exact EB].
      * intros i. intros. apply (HS i a0 s0); [lia|assumption|assumption].
      * exists i, a2, s2. split; [lia|]. auto.
    + injection E as <- <-. exists lo, a, s. split; [lia|]. auto.
    + injection E as <- <-. exists lo, a, s. split; [lia|]. auto.
Qed.

Section H.
  Context {num : Num} {S : Type}.
  Variable set_momenta : mom num -> mom num -> mom num -> mom num -> ST S unit.
  Variable amp2 : ST S (T num).

  (** The amplitudes at given momenta, one after the other. *)
  Fixpoint sweep (qs : list (quad (mom num))) : ST S (list (T num)) :=
    match qs with
    | [] => sret []
    | q :: qs' =>
        set_momenta (q_1 q) (q_2 q) (q_3 q) (q_4 q) ;;
        do a <- amp2; do l <- sweep qs'; sret (a :: l)
    end.

  Lemma sweep_snoc qs q : forall s l s',
    sweep qs s = (Ok l, s') ->
    sweep (qs ++ [q]) s =
      (omap (fun a => l ++ [a]) (fst ((set_momenta (q_1 q) (q_2 q) (q_3 q) (q_4 q) ;; amp2) s')),
       snd ((set_momenta (q_1 q) (q_2 q) (q_3 q) (q_4 q) ;; amp2) s')).
  Proof.
    induction qs as [|q0 qs IH]; intros s l s' E; cbn [sweep app] in *.
    - injection E as <- <-. unfold sbind, sret, omap. 
      destruct (set_momenta _ _ _ _ s) as [[[]|e|u] s1]; cbn; try reflexivity.
      destruct (amp2 s1) as [[a|e|u] s2]; reflexivity.
    - unfold sbind at 1 in E. unfold sbind at 1.
      destruct (set_momenta (q_1 q0) (q_2 q0) (q_3 q0) (q_4 q0) s) as [[[]|e|u] s1]; try discriminate.
      unfold sbind at 1 in E. unfold sbind at 1. destruct (amp2 s1) as [[a|e|u] s2]; try discriminate.
      unfold sbind at 1 in E. unfold sbind at 1. destruct (sweep qs s2) as [[l0|e|u] s3] eqn:E3; try discriminate.
      injection E as <- <-. rewrite (IH s2 l0 s3 E3). unfold sbind, omap.
      destruct (set_momenta (q_1 q) (q_2 q) (q_3 q) (q_4 q) s3) as [[[]|e|u] s4]; cbn; try reflexivity.
      destruct (amp2 s4) as [[a'|e|u] s5]; reflexivity.
  Qed.

  Definition count_bad (abs rel : Q) (l d : list (T num)) : nat :=
    length (filter (fun x => bad_point abs rel (fst x) (snd x)) (combine l d)).
  Lemma count_snoc abs rel l d a x : length l = length d ->
    count_bad abs rel (l ++ [a]) (d ++ [x]) = (count_bad abs rel l d + if bad_point abs rel a x then 1 else 0)%nat.
  Proof.
    intros HL. unfold count_bad. assert (E : combine (l ++ [a]) (d ++ [x]) = combine l d ++ [(a, x)]).
    { revert d HL. induction l as [|y l IH]; intros [|z d] HL; try discriminate; [reflexivity|].
      cbn [app combine]. rewrite IH; auto. }
    rewrite E, filter_app, app_length. cbn [filter fst snd]. destruct (bad_point abs rel a x); reflexivity.
  Qed.
  Lemma count_le abs rel l d : (count_bad abs rel l d <= length l)%nat.
  Proof.
    unfold count_bad. etransitivity; [|apply Nat.le_min_l with (m := length d)]. rewrite <- combine_length.
    clear. induction (combine l d) as [|x m IH]; cbn [filter length]; [lia|]. destruct (bad_point _ _ _ _); cbn [length]; lia.
  Qed.

  (** The state of a test after some points: where it started, the momenta used, the data
      they were compared with, the tally and the state of the process. *)
  Definition progress (abs rel : Q) (s0 : S) (qs : list (quad (mom num))) (ds : list (T num))
      (i : Z) (s : S) : Prop :=
    exists l, sweep qs s0 = (Ok l, s) /\ length l = length ds /\ i = Z.of_nat (count_bad abs rel l ds) /\
              (length qs = length l).

  Lemma amp_at_proc q s g :
    amp_at set_momenta amp2 q (s, g) =
      (fst ((set_momenta (q_1 q) (q_2 q) (q_3 q) (q_4 q) ;; amp2) s),
       (snd ((set_momenta (q_1 q) (q_2 q) (q_3 q) (q_4 q) ;; amp2) s), g)).
  Proof.
    unfold amp_at, on_proc, sbind. cbn [fst snd].
    destruct (set_momenta (q_1 q) (q_2 q) (q_3 q) (q_4 q) s) as [[[]|e|u] s1]; cbn [fst snd]; try reflexivity.
    destruct (amp2 s1) as [[a|e|u] s2]; reflexivity.
  Qed.

  Lemma tally_step abs rel data j q i s g s0 qs ds d :
    progress abs rel s0 qs ds i s -> nth_error data j = Some d -> (length qs < 1000)%nat ->
    match tally set_momenta amp2 abs rel data j q i (s, g) with
    | (Ok i', (s', g')) => g' = g /\ progress abs rel s0 (qs ++ [q]) (ds ++ [d]) i' s'
    | (Exn e, (s', g')) => g' = g /\ sweep (qs ++ [q]) s0 = (Exn e, s')
    | (UB u, (s', g')) => g' = g /\ sweep (qs ++ [q]) s0 = (UB u, s')
    end.
  Proof.
    intros (l & HSw & HL & HC & HQ) Hd Hq. unfold tally, sbind. rewrite amp_at_proc.
    pose proof (sweep_snoc qs q s0 l s HSw) as SN.
    destruct ((set_momenta (q_1 q) (q_2 q) (q_3 q) (q_4 q) ;; amp2) s) as [[a|e|u] s1]; cbn [fst snd] in *;
      [|split; [reflexivity|exact SN] ..].
    unfold slift. unfold arr_get. rewrite Hd.
    assert (P : progress abs rel s0 (qs ++ [q]) (ds ++ [d])
                  (i + if bad_point abs rel a d then 1 else 0) s1).
    { exists (l ++ [a]). split; [exact SN|]. rewrite !app_length, HL. cbn [length]. split; [reflexivity|].
      split; [|rewrite HQ, HL; reflexivity]. rewrite count_snoc by exact HL. rewrite HC. destruct (bad_point abs rel a d); lia. }
    destruct (bad_point abs rel a d).
    - unfold int_add, int_res. pose proof (count_le abs rel l ds) as CL.
      replace (in_int (i + 1)) with true.
      + split; [reflexivity|exact P].
      + symmetry. unfold in_int, int_min, int_max. apply andb_true_intro. split; apply Z.leb_le; lia.
    - rewrite Z.add_0_r in P. split; [reflexivity|exact P].
  Qed.

  (** ** the loops *)
  Variables (abs rel : Q) (data : list (T num)) (dflt : T num) (from : nat -> quad (mom num) -> Prop) (s0 : S).
  Definition Inv (idx : list nat) (i : Z) (s : S) : Prop :=
    exists qs, Forall2 from idx qs /\ progress abs rel s0 qs (map (fun j => nth j data dflt) idx) i s.
  Definition Failed {A} (all : list nat) (r : outcome A) (s : S) : Prop :=
    exists qs idx rest, all = idx ++ rest /\ Forall2 from idx qs /\
      match r with
      | Ok _ => False
      | Exn e => sweep qs s0 = (Exn e, s)
      | UB u => u = BadDistribution \/ u = LoopNotDone \/ sweep qs s0 = (UB u, s)
      end.
  Definition Step {A} (idx all : list nat) (cnt : A -> Z) (good : A -> Prop) (r : outcome A * (S * stream num)) : Prop :=
    match fst r with
    | Ok a => Inv idx (cnt a) (fst (snd r)) /\ good a
    | o => Failed all o (fst (snd r))
    end.

  Lemma F2_len {A B} (P : A -> B -> Prop) l l' : Forall2 P l l' -> length l = length l'.
  Proof. induction 1; cbn; auto. Qed.
  Lemma F2_snoc {A B} (P : A -> B -> Prop) l l' x y : Forall2 P l l' -> P x y -> Forall2 P (l ++ [x]) (l' ++ [y]).
  Proof. intros H K. apply Forall2_app; auto. Qed.

  (** one point: momenta from the generator, then the tally *)
  Lemma point_step {A} (idx rest : list nat) (j : nat) (i : Z) s g (gen : ST (stream num) (quad (mom num)))
      (cnt : A -> Z) (good : A -> Prop) (mk : Z -> quad (mom num) -> A) :
    Inv idx i s -> (j < length data)%nat -> (length idx < 1000)%nat ->
    (forall i q, cnt (mk i q) = i) ->
    (forall q g', gen g = (Ok q, g') -> from j q /\ forall i, good (mk i q)) ->
    (forall e g', gen g <> (Exn e, g')) ->
    (forall u g', gen g = (UB u, g') -> u = BadDistribution \/ u = LoopNotDone) ->
    Step (idx ++ [j]) ((idx ++ [j]) ++ rest) cnt good
      ((do q <- on_rng gen; do i' <- tally set_momenta amp2 abs rel data j q i; sret (mk i' q)) (s, g)).
  Proof.
    intros (qs & HF & HP) Hj HL Hmk HG HE HU. unfold Step, sbind, on_rng. cbn [fst snd].
    assert (HLq : length qs = length idx) by (symmetry; apply (F2_len _ _ _ HF)).
    destruct (gen g) as [[q|e|u] g1] eqn:EG.
    - destruct (HG q g1 eq_refl) as [Hq Hgood].
      destruct (nth_error data j) as [d|] eqn:Ed; [|apply nth_error_None in Ed; lia].
      assert (Dj : nth j data dflt = d) by (apply nth_error_nth; exact Ed).
      pose proof (tally_step abs rel data j q i s g1 s0 qs _ d HP Ed ltac:(lia)) as TS.
      destruct (tally set_momenta amp2 abs rel data j q i (s, g1)) as [[i'|e|u] [s' g']]; cbn [fst snd sret] in *.
      + split; [|apply Hgood]. rewrite Hmk. exists (qs ++ [q]). split; [apply F2_snoc; assumption|].
        rewrite map_app. cbn [map]. rewrite Dj. apply TS.
      + exists (qs ++ [q]), (idx ++ [j]), rest. split; [reflexivity|]. split; [apply F2_snoc; assumption|apply TS].
      + exists (qs ++ [q]), (idx ++ [j]), rest. split; [reflexivity|]. split; [apply F2_snoc; assumption|]. right. right. apply TS.
    - destruct (HE e g1 eq_refl).
    - cbn [fst snd]. exists qs, idx, ([j] ++ rest). split; [rewrite <- app_assoc; reflexivity|]. split; [exact HF|].
      destruct (HU u g1 eq_refl); auto.
  Qed.

  (** the inner loop *)
  Lemma inner_loop {A} (cnt : A -> Z) (good : A -> Prop) (j : nat) (body : A -> ST (S * stream num) A) c :
    (forall idx rest a s g, (length idx < 1000)%nat -> Inv idx (cnt a) s -> good a ->
       Step (idx ++ [j]) ((idx ++ [j]) ++ rest) cnt good (body a (s, g))) ->
    forall lo idx rest a s g, (length idx + c <= 1000)%nat -> Inv idx (cnt a) s -> good a ->
      Step (idx ++ repeat j c) ((idx ++ repeat j c) ++ rest) cnt good (sfor lo c (fun _ => body) a (s, g)).
  Proof.
    intros HB. induction c as [|c IH]; intros lo idx rest a s g HL HI HG; cbn [repeat sfor].
    - rewrite app_nil_r. unfold Step, sret. cbn [fst snd]. auto.
    - pose proof (HB idx (repeat j c ++ rest) a s g ltac:(lia) HI HG) as H1.
      unfold sbind. unfold Step in H1.
      destruct (body a (s, g)) as [[a1|e|u] [s1 g1]]; cbn [fst snd] in *.
      + destruct H1 as [I1 G1].
        specialize (IH (Datatypes.S lo) (idx ++ [j]) rest a1 s1 g1).
        rewrite app_length in IH. cbn [length] in IH. specialize (IH ltac:(lia) I1 G1).
        rewrite <- !app_assoc in IH. rewrite <- !app_assoc. exact IH.
      + unfold Step. cbn [fst snd]. rewrite <- !app_assoc in *. exact H1.
      + unfold Step. cbn [fst snd]. rewrite <- !app_assoc in *. exact H1.
  Qed.
  (** the outer loop *)
  Lemma outer_loop (c : nat) (body : nat -> Z -> ST (S * stream num) Z) n :
    (forall j idx rest i s g, (j < length data)%nat -> (length idx + c <= 1000)%nat -> Inv idx i s ->
       Step (idx ++ repeat j c) ((idx ++ repeat j c) ++ rest) (fun z => z) (fun _ => True) (body j i (s, g))) ->
    forall lo idx i s g, (lo + n <= length data)%nat -> (length idx + n * c <= 1000)%nat -> Inv idx i s ->
      let all := idx ++ flat_map (fun j => repeat j c) (seq lo n) in
      Step all all (fun z => z) (fun _ => True) (sfor lo n body i (s, g)).
  Proof.
    intros HB. induction n as [|n IH]; intros lo idx i s g HD HL HI; cbn [seq flat_map sfor].
    - rewrite app_nil_r. unfold Step, sret. cbn [fst snd]. auto.
    - cbv zeta. pose proof (HB lo idx (flat_map (fun j => repeat j c) (seq (Datatypes.S lo) n)) i s g ltac:(lia) ltac:(cbn in HL; lia) HI) as H1.
      unfold sbind. unfold Step in H1.
      destruct (body lo i (s, g)) as [[i1|e|u] [s1 g1]]; cbn [fst snd] in *.
      + destruct H1 as [I1 _].
        specialize (IH (Datatypes.S lo) (idx ++ repeat lo c) i1 s1 g1 ltac:(lia)).
        rewrite app_length, repeat_length in IH. specialize (IH ltac:(cbn in HL; lia) I1).
        cbv zeta in IH. rewrite <- !app_assoc in IH. exact IH.
      + unfold Step. cbn [fst snd]. rewrite <- !app_assoc in *. exact H1.
      + unfold Step. cbn [fst snd]. rewrite <- !app_assoc in *. exact H1.
  Qed.
  Lemma Inv_start : Inv [] 0 s0.
  Proof. exists []. split; [constructor|]. exists []. repeat split. Qed.
End H.
