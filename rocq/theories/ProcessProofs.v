(** * Lemmas behind C23-C25 *)
From Coq Require Import Reals Lra QArith Qreals.
From Verif Require Import Base Scalar Integers Process RealNum.
Close Scope Q_scope.

(** ** Loops *)
Lemma ofor_inv {A} (P : nat -> A -> Prop) (body : nat -> A -> outcome A) n : forall lo a,
  P lo a ->
  (forall i a, (lo <= i < lo + n)%nat -> P i a -> exists a', body i a = Ok a' /\ P (S i) a') ->
  exists a', ofor lo n body a = Ok a' /\ P (lo + n)%nat a'.
Proof.
  induction n as [|n IH]; intros lo a H HS; simpl.
  - exists a. split; [reflexivity|]. rewrite Nat.add_0_r. exact H.
  - destruct (HS lo a) as (a1 & E & H1); [lia|exact H|]. rewrite E. cbn [obind].
    destruct (IH (S lo) a1 H1) as (a' & E' & H').
    + intros i b Hi. apply HS. lia.
    + exists a'. split; [exact E'|]. replace (lo + S n)%nat with (S lo + n)%nat by lia. exact H'.
Qed.
Lemma ofor_app {A} (body : nat -> A -> outcome A) n m : forall lo a,
  ofor lo (n + m) body a = let! a' := ofor lo n body a in ofor (lo + n) m body a'.
Proof.
  induction n as [|n IH]; intros lo a; simpl.
  - rewrite Nat.add_0_r. reflexivity.
  - destruct (body lo a); cbn [obind]; try reflexivity. rewrite IH. do 2 f_equal. 
    replace (S lo + n)%nat with (lo + S n)%nat by lia. reflexivity.
Qed.

(** a loop over the elements of an array *)
Fixpoint ofold {A B} (f : B -> A -> outcome A) (l : list B) (a : A) : outcome A :=
  match l with [] => Ok a | x :: l' => let! a' := f x a in ofold f l' a' end.
Lemma ofor_array {A B} (f : B -> A -> outcome A) (l : list B) : forall pre a,
  ofor (length pre) (length l) (fun i a => let! x := arr_get (pre ++ l) i in f x a) a = ofold f l a.
Proof.
  induction l as [|x l IH]; intros pre a; cbn [ofor ofold length]; [reflexivity|].
  assert (E : arr_get (pre ++ x :: l) (length pre) = Ok x).
  { unfold arr_get. rewrite nth_error_app2, Nat.sub_diag by lia. reflexivity. }
  rewrite E. cbn [obind]. destruct (f x a) as [a'|e|u]; cbn [obind]; try reflexivity.
  specialize (IH (pre ++ [x]) a'). rewrite app_length in IH. cbn [length] in IH.
  rewrite Nat.add_1_r, <- app_assoc in IH. exact IH.
Qed.

(** ** C23 *)
Definition zeros (l : list Z) : nat := length (filter (fun x => (x =? 0)%Z) l).

Lemma in_int_pow k : in_int (2 ^ Z.of_nat k) = (k <=? 30)%nat.
Proof.
  unfold in_int, int_min, int_max. destruct (k <=? 30)%nat eqn:E.
  - apply Nat.leb_le in E. assert (2 ^ Z.of_nat k <= 2 ^ 30)%Z by (apply Z.pow_le_mono_r; lia).
    assert (0 < 2 ^ Z.of_nat k)%Z by (apply Z.pow_pos_nonneg; lia).
    apply andb_true_intro. split; apply Z.leb_le; lia.
  - apply Nat.leb_gt in E. assert (2 ^ 31 <= 2 ^ Z.of_nat k)%Z by (apply Z.pow_le_mono_r; lia).
    apply andb_false_intro2. apply Z.leb_gt. lia.
Qed.
Lemma loops_fold l : forall k, (k <= 30)%nat ->
  ofold (fun ds n => if (ds =? 0)%Z then int_mul n 2 else Ok n) l (2 ^ Z.of_nat k)%Z
  = if (k + zeros l <=? 30)%nat then Ok (2 ^ Z.of_nat (k + zeros l))%Z else UB IntOverflow.
Proof.
  unfold zeros. induction l as [|x l IH]; intros k Hk; cbn [ofold filter].
  - cbn [length]. rewrite Nat.add_0_r. apply Nat.leb_le in Hk. rewrite Hk. reflexivity.
  - destruct (x =? 0)%Z; cbn [obind length].
    + unfold int_mul, int_res.
      replace (2 ^ Z.of_nat k * 2)%Z with (2 ^ Z.of_nat (S k))%Z
        by (rewrite Nat2Z.inj_succ, Z.pow_succ_r by lia; ring).
      rewrite in_int_pow. destruct (S k <=? 30)%nat eqn:E; cbn [obind].
      * rewrite IH by (apply Nat.leb_le, E). rewrite Nat.add_succ_comm. reflexivity.
      * apply Nat.leb_gt in E. destruct (k + S _ <=? 30)%nat eqn:E2; [|reflexivity].
        apply Nat.leb_le in E2. lia.
    + apply IH, Hk.
Qed.
Lemma num_spin_loops_value l :
  get_num_spin_loops l (length l) =
    if (zeros l <=? 30)%nat then Ok (2 ^ Z.of_nat (zeros l))%Z else UB IntOverflow.
Proof.
  unfold get_num_spin_loops.
  transitivity (ofold (fun ds n => if (ds =? 0)%Z then int_mul n 2 else Ok n) l 1%Z).
  - exact (ofor_array (fun ds n => if (ds =? 0)%Z then int_mul n 2 else Ok n) l [] 1%Z).
  - apply (loops_fold l 0). lia.
Qed.

(** ** C24 *)
Open Scope R_scope.
Lemma norm_fold st eps l : forall x : R,
  exists y, ofold (fun ds (n : T (RN st eps)) => if (ds =? 0)%Z then Ok (n / tD (dsqrt (dQ (2 # 1))))%ld else Ok n) l x
    = Ok y /\ y * y * 2 ^ zeros l = x * x /\ (0 < x -> 0 < y).
Proof.
  unfold zeros. induction l as [|z l IH]; intros x; cbn [ofold filter].
  - exists x. cbn. split; [reflexivity|]. split; [ring|auto].
  - destruct (z =? 0)%Z; cbn [obind length].
    + destruct (IH (x / sqrt (Q2R (2 # 1)))) as (y & E & H & Hp). exists y. rewrite Q2R_2 in H, Hp.
      split; [exact E|]. assert (S : 0 < sqrt 2) by (apply sqrt_lt_R0; lra).
      assert (SS : sqrt 2 * sqrt 2 = 2) by (apply sqrt_sqrt; lra). split.
      * rewrite <- tech_pow_Rmult.
        replace (y * y * (2 * 2 ^ length (filter (fun x0 => (x0 =? 0)%Z) l)))
          with (2 * (y * y * 2 ^ length (filter (fun x0 => (x0 =? 0)%Z) l))) by ring.
        rewrite H. rewrite <- SS at 1. field. lra.
      * intros Hx. apply Hp. apply Rdiv_lt_0_compat; assumption.
    + apply IH.
Qed.
Lemma norm_value st eps l :
  exists y : R, get_spin_normalization (num:=RN st eps) l (length l) = Ok y /\ y * y * 2 ^ zeros l = 1 /\ 0 < y.
Proof.
  unfold get_spin_normalization.
  destruct (norm_fold st eps l 1) as (y & E & H & Hp). exists y. split.
  { etransitivity; [|exact E].
    exact (ofor_array (fun ds (n : T (RN st eps)) => if (ds =? 0)%Z then Ok (n / tD (dsqrt (dQ (2 # 1))))%ld else Ok n) l [] (tZ 1)). }
  split; [rewrite H; ring|apply Hp; lra].
Qed.
Close Scope R_scope.

(** ** C25 *)
Section Spins.
  Variables (dsList la lb : list iaddr) (hs : list Z) (it : Z) (M : imem).
  Let n := length hs.
  Hypothesis Hlen : length dsList = n.
  Hypothesis Hla : length la = n.
  Hypothesis Hlb : length lb = n.
  Hypothesis Hread : forall i a h, nth_error dsList i = Some a -> nth_error hs i = Some h -> M a = Some h.

  Lemma zeros_S i h : nth_error hs i = Some h ->
    zeros (firstn (S i) hs) = (zeros (firstn i hs) + if (h =? 0)%Z then 1 else 0)%nat.
  Proof.
    intros H. unfold zeros. assert (E : firstn (S i) hs = firstn i hs ++ [h]).
    { clear - H. revert i H. generalize hs. induction hs0 as [|x l IH]; intros [|i] H; try discriminate.
      - injection H as ->. reflexivity.
      - cbn [firstn app]. f_equal. apply IH, H. }
    rewrite E, filter_app, app_length. cbn [filter]. destruct (h =? 0)%Z; reflexivity.
  Qed.
  Lemma zeros_le i : (zeros (firstn i hs) <= zeros hs)%nat.
  Proof.
    clear. unfold zeros. rewrite <- (firstn_skipn i hs) at 2. rewrite filter_app, app_length. lia.
  Qed.
  Lemma zeros_len l : (zeros l <= length l)%nat.
  Proof. unfold zeros. induction l as [|x l IH]; cbn; [lia|]. destruct (x =? 0)%Z; cbn; lia. Qed.
  Lemma zeros_firstn_len i : (zeros (firstn i hs) <= i)%nat.
  Proof. etransitivity; [apply zeros_len|]. apply firstn_le_length. Qed.

  Definition bit (k : nat) : Z := Z.land (Z.shiftr it (Z.of_nat k)) 1.
  Definition cinv (i : nat) (s : list Z * nat) : Prop :=
    snd s = zeros (firstn i hs) /\ length (fst s) = n /\
    forall k, (k < snd s)%nat -> nth_error (fst s) k = Some (bit k).

  Lemma arr_upd_length {A} (l : list A) i x : length (arr_upd l i x) = length l.
  Proof. revert i; induction l as [|y l IH]; intros [|i]; simpl; auto. Qed.
  Lemma arr_upd_same {A} (l : list A) i x : (i < length l)%nat -> nth_error (arr_upd l i x) i = Some x.
  Proof. revert i; induction l as [|y l IH]; intros [|i]; simpl; intros; try lia; auto. apply IH. lia. Qed.
  Lemma arr_upd_other {A} (l : list A) i j x : i <> j -> nth_error (arr_upd l i x) j = nth_error l j.
  Proof. revert i j; induction l as [|y l IH]; intros [|i] [|j]; simpl; intros; try congruence. apply IH. lia. Qed.

  Lemma count_one i s : (i < n)%nat -> cinv i s -> (zeros (firstn (S i) hs) <= 32)%nat ->
    exists s', count_step M dsList it i s = Ok s' /\ cinv (S i) s'.
  Proof.
    intros Hi (H0 & H1 & H2) Hz. destruct s as [cs n0]. cbn [fst snd] in *.
    destruct (nth_error hs i) as [h|] eqn:Eh; [|apply nth_error_None in Eh; unfold n in Hi; lia].
    destruct (nth_error dsList i) as [a|] eqn:Ea; [|apply nth_error_None in Ea; lia].
    pose proof (zeros_S i h Eh) as ZS. pose proof (zeros_firstn_len i) as ZL.
    unfold count_step, arr_get. rewrite Ea. cbn [obind]. unfold iload. rewrite (Hread i a h Ea Eh). cbn [obind].
    destruct (h =? 0)%Z eqn:E0.
    - unfold int_shr. replace ((0 <=? Z.of_nat n0)%Z && (Z.of_nat n0 <? 32)%Z) with true.
      2:{ symmetry. apply andb_true_intro. split; [apply Z.leb_le|apply Z.ltb_lt]; lia. }
      cbn [obind]. unfold arr_set. replace (n0 <? length cs)%nat with true by (symmetry; apply Nat.ltb_lt; lia).
      cbn [obind]. eexists. split; [reflexivity|]. split; [|split]; cbn [fst snd].
      + lia.
      + rewrite arr_upd_length. exact H1.
      + intros k Hk. destruct (Nat.eq_dec n0 k) as [->|Hne].
        * rewrite arr_upd_same by lia. reflexivity.
        * rewrite arr_upd_other by exact Hne. apply H2. lia.
    - eexists. split; [reflexivity|]. split; [cbn; unfold bit in *; cbn in *; lia|]. split; [exact H1|exact H2].
  Qed.
  Lemma repeat_inv : cinv 0 (repeat 0%Z n, 0%nat).
  Proof. split; [reflexivity|]. split; [apply repeat_length|]. intros k Hk. cbn in Hk. lia. Qed.
  Lemma count_loop k : (k <= n)%nat -> (zeros (firstn k hs) <= 32)%nat ->
    exists s, ofor 0 k (count_step M dsList it) (repeat 0%Z n, 0%nat) = Ok s /\ cinv k s.
  Proof.
    intros Hk Hz. apply (ofor_inv cinv).
    - apply repeat_inv.
    - intros i s Hi HI. apply count_one; [lia|exact HI|].
      etransitivity; [|exact Hz]. unfold zeros.
      replace (firstn k hs) with (firstn (S i) hs ++ skipn (S i) (firstn k hs)).
      + rewrite filter_app, app_length. lia.
      + rewrite <- (firstn_skipn (S i) (firstn k hs)) at 2. f_equal.
        rewrite firstn_firstn. f_equal. lia.
  Qed.

  (** *** too many zeros: the shift is undefined *)
  Lemma find_33 l : (33 <= zeros l)%nat -> exists i, (i < length l)%nat /\ zeros (firstn i l) = 32%nat /\ nth_error l i = Some 0%Z.
  Proof.
    intros H. assert (K : forall k l, (k < zeros l)%nat ->
      exists i, (i < length l)%nat /\ zeros (firstn i l) = k /\ nth_error l i = Some 0%Z).
    { clear. intros k l. revert k. unfold zeros. induction l as [|x l IH]; intros k Hk; cbn in Hk; [lia|].
      destruct (x =? 0)%Z eqn:E.
      - destruct k as [|k].
        + exists 0%nat. apply Z.eqb_eq in E. subst x. cbn. repeat split; lia.
        + destruct (IH k) as (i & H1 & H2 & H3); [cbn in Hk; lia|].
          exists (S i). cbn. rewrite E. cbn. repeat split; [lia|congruence|exact H3].
      - destruct (IH k Hk) as (i & H1 & H2 & H3). exists (S i). cbn. rewrite E. repeat split; [lia|exact H2|exact H3]. }
    apply (K 32%nat). lia.
  Qed.
  Lemma count_overflow : (33 <= zeros hs)%nat ->
    ofor 0 n (count_step M dsList it) (repeat 0%Z n, 0%nat) = UB BadShift.
  Proof.
    intros H. destruct (find_33 hs H) as (i & Hi & Hz & E0).
    destruct (count_loop i) as (s & ES & (C1 & C2 & C3)); [unfold n; lia|lia|].
    replace n with (i + S (n - S i))%nat at 1 by (unfold n; lia). rewrite ofor_app, ES. cbn [obind ofor].
    destruct s as [cs n0]. cbn [fst snd] in *.
    destruct (nth_error dsList i) as [a|] eqn:Ea; [|apply nth_error_None in Ea; unfold n in *; lia].
    unfold count_step at 1, arr_get. rewrite Nat.add_0_l, Ea. cbn [obind]. unfold iload. rewrite (Hread i a 0%Z Ea E0). cbn [obind Z.eqb].
    rewrite C1, Hz. reflexivity.
  Qed.

  (** *** the second loop *)
  Definition pair_of (i : nat) (h : Z) : Z * Z :=
    if (h =? 0)%Z then if (bit (zeros (firstn i hs)) =? 0)%Z then (1, -1)%Z else (-1, 1)%Z
    else if (h <? 0)%Z then (-1, -1)%Z else (1, 1)%Z.
  Hypothesis Hnd : NoDup (la ++ lb).
  Hypothesis Hdis : forall a, In a dsList -> ~ In a (la ++ lb).
  Variable cs : list Z.
  Hypothesis Hcs : forall k, (k < zeros hs)%nat -> nth_error cs k = Some (bit k).

  Definition ainv (i : nat) (s : imem * nat) : Prop :=
    snd s = zeros (firstn i hs) /\
    (forall j a b h, (j < i)%nat -> nth_error la j = Some a -> nth_error lb j = Some b -> nth_error hs j = Some h ->
       fst s a = Some (fst (pair_of j h)) /\ fst s b = Some (snd (pair_of j h))) /\
    (forall x, (forall j, (j < i)%nat -> nth_error la j <> Some x /\ nth_error lb j <> Some x) -> fst s x = M x).

  Lemma nd_a i j a : nth_error la i = Some a -> nth_error la j = Some a -> i = j.
  Proof.
    intros H1 H2. apply (proj1 (NoDup_nth_error _) Hnd).
    - rewrite app_length. assert (i < length la)%nat by (apply nth_error_Some; congruence). lia.
    - rewrite !nth_error_app1 by (apply nth_error_Some; congruence). congruence.
  Qed.
  Lemma nd_b i j a : nth_error lb i = Some a -> nth_error lb j = Some a -> i = j.
  Proof.
    intros H1 H2. assert (length la + i = length la + j)%nat; [|lia]. apply (proj1 (NoDup_nth_error _) Hnd).
    - rewrite app_length. assert (i < length lb)%nat by (apply nth_error_Some; congruence). lia.
    - rewrite !nth_error_app2 by lia. replace (length la + i - length la)%nat with i by lia.
      replace (length la + j - length la)%nat with j by lia. congruence.
  Qed.
  Lemma nd_ab i j a : nth_error la i = Some a -> nth_error lb j = Some a -> False.
  Proof.
    intros H1 H2. assert (i < length la)%nat by (apply nth_error_Some; congruence).
    assert (j < length lb)%nat by (apply nth_error_Some; congruence).
    assert (i = length la + j)%nat; [|lia]. apply (proj1 (NoDup_nth_error _) Hnd).
    - rewrite app_length. lia.
    - rewrite nth_error_app1, nth_error_app2 by lia. replace (length la + j - length la)%nat with j by lia. congruence.
  Qed.
  Lemma store2 (m : imem) a b x y : a <> b ->
    let m' := istore (istore m a x) b y in
    m' a = Some x /\ m' b = Some y /\ forall c, c <> a -> c <> b -> m' c = m c.
  Proof.
    intros Hab. cbn. unfold istore. rewrite !Nat.eqb_refl.
    apply Nat.neq_sym, Nat.eqb_neq in Hab. rewrite Hab. repeat split. intros c Ha Hb.
    apply Nat.neq_sym, Nat.eqb_neq in Ha. apply Nat.neq_sym, Nat.eqb_neq in Hb. rewrite Ha, Hb. reflexivity.
  Qed.

  Lemma assign_one i s : (i < n)%nat -> ainv i s ->
    exists s', assign_step cs dsList la lb i s = Ok s' /\ ainv (S i) s'.
  Proof.
    intros Hi (H0 & H1 & H2). destruct s as [m n0]. cbn [fst snd] in *.
    destruct (nth_error hs i) as [h|] eqn:Eh; [|apply nth_error_None in Eh; unfold n in Hi; lia].
    destruct (nth_error dsList i) as [d|] eqn:Ed; [|apply nth_error_None in Ed; lia].
    destruct (nth_error la i) as [a|] eqn:Ea; [|apply nth_error_None in Ea; lia].
    destruct (nth_error lb i) as [b|] eqn:Eb; [|apply nth_error_None in Eb; lia].
    pose proof (zeros_S i h Eh) as ZS.
    assert (Hm : m d = Some h).
    { rewrite H2; [exact (Hread i d h Ed Eh)|]. intros j _.
      pose proof (Hdis d (nth_error_In _ _ Ed)) as ND. rewrite in_app_iff in ND.
      split; intros E; apply ND; [left|right]; eapply nth_error_In; eauto. }
    assert (Hab : a <> b) by (intros ->; exact (nd_ab _ _ _ Ea Eb)).
    (* the common conclusion *)
    assert (K : forall k' , k' = zeros (firstn (S i) hs) ->
       ainv (S i) (istore (istore m a (fst (pair_of i h))) b (snd (pair_of i h)), k')).
    { intros k' ->. destruct (store2 m a b (fst (pair_of i h)) (snd (pair_of i h)) Hab) as (S1 & S2 & S3).
      split; [reflexivity|]. split; cbn [fst snd].
      - intros j a' b' h' Hj Ea' Eb' Eh'. destruct (Nat.eq_dec j i) as [->|Hne].
        + rewrite Ea in Ea'. rewrite Eb in Eb'. rewrite Eh in Eh'. injection Ea' as <-. injection Eb' as <-. injection Eh' as <-.
          split; assumption.
        + rewrite !S3.
          * apply (H1 j a' b' h'); [lia|assumption..].
          * intros ->. exact (nd_ab _ _ _ Ea Eb').
          * intros ->. apply Hne. exact (nd_b _ _ _ Eb' Eb).
          * intros ->. apply Hne. exact (nd_a _ _ _ Ea' Ea).
          * intros ->. exact (nd_ab _ _ _ Ea' Eb).
      - intros x Hx. destruct (Hx i) as [Xa Xb]; [lia|]. rewrite S3 by congruence.
        apply H2. intros j Hj. apply Hx. lia. }
    unfold assign_step, arr_get. rewrite Ed. cbn [obind]. unfold iload. rewrite Hm. cbn [obind].
    revert K. unfold pair_of. destruct (h =? 0)%Z eqn:E0; intros K.
    - assert (Hb : nth_error cs n0 = Some (bit n0)).
      { apply Hcs. pose proof (zeros_le (S i)). lia. }
      rewrite Hb, Ea, Eb. cbn [obind]. rewrite <- H0 in K.
      destruct (bit n0 =? 0)%Z; (eexists; split; [reflexivity|]; apply K; lia).
    - rewrite Nat.add_0_r in ZS. rewrite Ea, Eb. cbn [obind].
      destruct (h <? 0)%Z eqn:E1.
      + eexists; split; [reflexivity|]. apply K. lia.
      + assert ((h >? 0)%Z = true) as ->.
        { apply Z.eqb_neq in E0. apply Z.ltb_ge in E1. apply Z.gtb_lt. lia. }
        eexists; split; [reflexivity|]. apply K. lia.
  Qed.
  Lemma assign_loop : exists s, ofor 0 n (assign_step cs dsList la lb) (M, 0%nat) = Ok s /\ ainv n s.
  Proof.
    apply (ofor_inv ainv).
    - split; [reflexivity|]. split; [intros; lia|]. reflexivity.
    - intros i s Hi HI. apply assign_one; [lia|exact HI].
  Qed.
End Spins.

Lemma bit_testbit it k : bit it k = Z.b2z (Z.testbit it (Z.of_nat k)).
Proof.
  unfold bit. change 1%Z with (Z.ones 1). rewrite Z.land_ones by lia.
  change (2 ^ 1)%Z with 2%Z. rewrite <- Z.bit0_mod, Z.shiftr_spec by lia. reflexivity.
Qed.

(** Exactly one integer below 2^z has given bits. *)
Lemma bits_exist z : forall c : nat -> bool,
  exists it, (0 <= it < 2 ^ Z.of_nat z)%Z /\ forall k, (k < z)%nat -> Z.testbit it (Z.of_nat k) = c k.
Proof.
  induction z as [|z IH]; intros c.
  - exists 0%Z. split; [cbn; lia|]. intros k Hk. lia.
  - destruct (IH (fun k => c (S k))) as (t & Ht & Hb).
    exists (2 * t + Z.b2z (c 0%nat))%Z. split.
    + rewrite Nat2Z.inj_succ, Z.pow_succ_r by lia. destruct (c 0%nat); cbn [Z.b2z]; lia.
    + intros [|k] Hk.
      * cbn [Z.of_nat]. rewrite Z.testbit_0_r. reflexivity.
      * rewrite Nat2Z.inj_succ, Z.testbit_succ_r by lia. apply Hb. lia.
Qed.
Lemma bits_unique z a b : (0 <= a < 2 ^ Z.of_nat z)%Z -> (0 <= b < 2 ^ Z.of_nat z)%Z ->
  (forall k, (k < z)%nat -> Z.testbit a (Z.of_nat k) = Z.testbit b (Z.of_nat k)) -> a = b.
Proof.
  intros Ha Hb H. apply Z.bits_inj'. intros k Hk.
  destruct (Z.lt_ge_cases k (Z.of_nat z)) as [Hlt|Hge].
  - specialize (H (Z.to_nat k)). rewrite Z2Nat.id in H by lia. apply H. lia.
  - assert (L : forall x, (0 <= x < 2 ^ Z.of_nat z)%Z -> Z.testbit x k = false).
    { intros x Hx. destruct (Z.eq_dec x 0) as [->|]; [apply Z.bits_0|].
      apply Z.bits_above_log2; [lia|]. apply Z.log2_lt_pow2; [lia|].
      apply Z.lt_le_trans with (2 ^ Z.of_nat z)%Z; [lia|]. apply Z.pow_le_mono_r; lia. }
    rewrite !L by assumption. reflexivity.
Qed.

(** Summary of the whole function. *)
Lemma spinor_spins_value dsList la lb hs it M :
  length dsList = length hs -> length la = length hs -> length lb = length hs ->
  (forall i a h, nth_error dsList i = Some a -> nth_error hs i = Some h -> M a = Some h) ->
  NoDup (la ++ lb) -> (forall a, In a dsList -> ~ In a (la ++ lb)) ->
  ((zeros hs <= 32)%nat ->
   exists M', get_spinor_spins dsList la lb (length hs) it M = Ok M' /\
     (forall i a b h, nth_error la i = Some a -> nth_error lb i = Some b -> nth_error hs i = Some h ->
        M' a = Some (fst (pair_of hs it i h)) /\ M' b = Some (snd (pair_of hs it i h))) /\
     (forall x, ~ In x (la ++ lb) -> M' x = M x)) /\
  ((33 <= zeros hs)%nat -> get_spinor_spins dsList la lb (length hs) it M = UB BadShift).
Proof.
  intros H1 H2 H3 HR HN HD. split; intros Hz.
  - destruct (count_loop dsList la lb hs it M H1 H2 H3 HR (length hs) (le_n _)) as ([cs n0] & E & (C1 & C2 & C3)).
    { rewrite firstn_all. exact Hz. }
    cbn [fst snd] in *. rewrite firstn_all in C1.
    destruct (assign_loop dsList la lb hs it M H1 H2 H3 HR HN HD cs) as ([M' n1] & E' & (A1 & A2 & A3)).
    { intros k Hk. apply C3. lia. }
    cbn [fst snd] in *. exists M'. unfold get_spinor_spins. rewrite E. cbn [obind fst]. rewrite E'. cbn [obind fst].
    split; [reflexivity|]. split.
    + intros i a b h Ea Eb Eh. apply (A2 i a b h); auto. apply nth_error_Some. congruence.
    + intros x Hx. apply A3. intros j _. rewrite in_app_iff in Hx.
      split; intros EE; apply Hx; [left|right]; eapply nth_error_In; eauto.
  - unfold get_spinor_spins. rewrite (count_overflow dsList la lb hs it M H1 H2 H3 HR Hz). reflexivity.
Qed.
