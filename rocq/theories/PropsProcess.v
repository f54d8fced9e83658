(** * Properties C23-C25: helpers of class process *)
From Coq Require Import Reals Lra.
From Verif Require Import Base Scalar Integers Process RealNum ProcessProofs.

(** ** C23 *)
Theorem C23_num_spin_loops :
  forall args : list Z,
    let z := count_occ Z.eq_dec args 0%Z in
    ((z <= 30)%nat -> num_spin_loops_of args = Ok (2 ^ Z.of_nat z)%Z) /\
    ((31 <= z)%nat -> num_spin_loops_of args = UB IntOverflow).
Proof.
  intros args z.
  assert (E : zeros args = z).
  { unfold z. clear. unfold zeros. induction args as [|x l IH]; [reflexivity|]. cbn [filter count_occ].
    destruct (Z.eq_dec x 0) as [->|N]; [cbn; rewrite IH; reflexivity|].
    apply Z.eqb_neq in N. rewrite N. exact IH. }
  unfold num_spin_loops_of. rewrite num_spin_loops_value, E.
  split; intros H.
  - apply Nat.leb_le in H. rewrite H. reflexivity.
  - apply Nat.leb_gt in H. rewrite H. reflexivity.
Qed.
Print Assumptions C23_num_spin_loops.
Example C23_example : num_spin_loops_of [0; 2; 0; -2; 0]%Z = Ok 8%Z /\ num_spin_loops_of (repeat 0%Z 31) = UB IntOverflow.
Proof.
  destruct (C23_num_spin_loops [0; 2; 0; -2; 0]%Z) as [A _].
  destruct (C23_num_spin_loops (repeat 0%Z 31)) as [_ B].
  split; [apply A|apply B]; vm_compute; repeat constructor.
Qed.

(** ** C24 *)
Theorem C24_spin_normalization :
  forall st eps (args : list Z) (loops : Z),
    num_spin_loops_of args = Ok loops ->
    exists norm : R, spin_normalization_of (num:=RN st eps) args = Ok norm /\
      (0 < norm /\ norm * norm * IZR loops = 1)%R.
Proof.
  intros st eps args loops H. unfold num_spin_loops_of in H. rewrite num_spin_loops_value in H.
  destruct (norm_value st eps args) as (y & E & S & P). exists y. split; [exact E|]. split; [exact P|].
  destruct (zeros args <=? 30)%nat; [|discriminate]. injection H as <-.
  rewrite <- S. f_equal. rewrite <- pow_IZR. reflexivity.
Qed.
Print Assumptions C24_spin_normalization.
Example C24_example : exists norm : R, spin_normalization_of (num:=RN true 0) [0; 1; 0]%Z = Ok norm /\ (norm = / 2)%R.
Proof.
  destruct (C24_spin_normalization true 0 [0; 1; 0]%Z 4 eq_refl) as (n & E & P & H). exists n. split; [exact E|].
  assert ((n - / 2) * (n + / 2) = 0)%R by lra. apply Rmult_integral in H0. lra.
Qed.

(** ** C25 *)
(** The spins wanted for helicities hs when the particles of helicity 0 are given the
    choices c in order: [false] is (1,-1), [true] is (-1,1). *)
Fixpoint spins_spec (hs : list Z) (c : list bool) : list (Z * Z) :=
  match hs with
  | [] => []
  | h :: hs' =>
      if (h >? 0)%Z then (1, 1)%Z :: spins_spec hs' c
      else if (h <? 0)%Z then (-1, -1)%Z :: spins_spec hs' c
      else match c with
           | [] => []
           | b :: c' => (if b then (-1, 1)%Z else (1, -1)%Z) :: spins_spec hs' c'
           end
  end.
(** The number whose binary digits are c, least significant first. *)
Fixpoint binary (c : list bool) : Z :=
  match c with [] => 0%Z | b :: c' => (Z.b2z b + 2 * binary c')%Z end.

(** The variables of the caller: args lists (ds, dsa, dsb).  The ds hold the helicities hs;
    the dsa and dsb are different variables and none of them is a ds. *)
Definition distinct_outputs (args : list (iaddr * iaddr * iaddr)) : Prop :=
  let outs := map (fun x => snd (fst x)) args ++ map snd args in
  NoDup outs /\ forall a, In a (map (fun x => fst (fst x)) args) -> ~ In a outs.
Definition outputs_of (args : list (iaddr * iaddr * iaddr)) (M : imem) : list (option Z * option Z) :=
  map (fun x => (M (snd (fst x)), M (snd x))) args.

Lemma binary_range c : (0 <= binary c < 2 ^ Z.of_nat (length c))%Z.
Proof.
  induction c as [|b c IH]; cbn [binary length]; [cbn; lia|].
  rewrite Nat2Z.inj_succ, Z.pow_succ_r by lia. destruct b; cbn [Z.b2z]; lia.
Qed.
Lemma binary_bit c : forall k, (k < length c)%nat -> Z.testbit (binary c) (Z.of_nat k) = nth k c false.
Proof.
  induction c as [|b c IH]; intros k Hk; cbn [length] in Hk; [lia|]. cbn [binary].
  rewrite Z.add_comm. destruct k as [|k].
  - cbn [Z.of_nat nth]. apply Z.testbit_0_r.
  - rewrite Nat2Z.inj_succ, Z.testbit_succ_r by lia. apply IH. lia.
Qed.
Lemma zeros_count hs : zeros hs = count_occ Z.eq_dec hs 0%Z.
Proof.
  unfold zeros. induction hs as [|x l IH]; [reflexivity|]. cbn [filter count_occ].
  destruct (Z.eq_dec x 0) as [->|N]; [cbn; rewrite IH; reflexivity|].
  apply Z.eqb_neq in N. rewrite N. exact IH.
Qed.
(** spins_spec in terms of positions *)
Lemma spins_spec_nth hs : forall c i h, length c = zeros hs -> nth_error hs i = Some h ->
  nth_error (spins_spec hs c) i =
    Some (if (h =? 0)%Z then if nth (zeros (firstn i hs)) c false then (-1, 1)%Z else (1, -1)%Z
          else if (h <? 0)%Z then (-1, -1)%Z else (1, 1)%Z).
Proof.
  induction hs as [|x l IH]; intros c i h Hc Hi; [destruct i; discriminate|].
  unfold zeros in *. cbn [spins_spec filter] in *.
  destruct (x >? 0)%Z eqn:E1; [|destruct (x <? 0)%Z eqn:E2].
  - rewrite Z.gtb_ltb in E1. apply Z.ltb_lt in E1. assert (Ex : (x =? 0)%Z = false) by (apply Z.eqb_neq; lia). rewrite Ex in Hc.
    destruct i as [|i]; cbn [nth_error firstn filter] in *.
    + injection Hi as <-. rewrite Ex. replace (x <? 0)%Z with false by (symmetry; apply Z.ltb_ge; lia). reflexivity.
    + rewrite (IH c i h Hc Hi), Ex. reflexivity.
  - apply Z.ltb_lt in E2. assert (Ex : (x =? 0)%Z = false) by (apply Z.eqb_neq; lia). rewrite Ex in Hc.
    destruct i as [|i]; cbn [nth_error firstn filter] in *.
    + injection Hi as <-. rewrite Ex. replace (x <? 0)%Z with true by (symmetry; apply Z.ltb_lt; lia). reflexivity.
    + rewrite (IH c i h Hc Hi), Ex. reflexivity.
  - rewrite Z.gtb_ltb in E1. apply Z.ltb_ge in E1. apply Z.ltb_ge in E2. assert (x = 0%Z) by lia. subst x.
    cbn [Z.eqb length] in Hc. destruct c as [|b c]; cbn [length] in Hc; [lia|]. injection Hc as Hc.
    destruct i as [|i]; cbn [nth_error firstn filter Z.eqb] in *.
    + injection Hi as <-. cbn. reflexivity.
    + rewrite (IH c i h Hc Hi). cbn [length nth]. reflexivity.
Qed.
Lemma spins_spec_length hs : forall c, length c = zeros hs -> length (spins_spec hs c) = length hs.
Proof.
  induction hs as [|x l IH]; intros c Hc; [reflexivity|]. unfold zeros in *. cbn [spins_spec filter length] in *.
  destruct (x >? 0)%Z eqn:E1; [|destruct (x <? 0)%Z eqn:E2].
  - rewrite Z.gtb_ltb in E1. apply Z.ltb_lt in E1. assert (Ex : (x =? 0)%Z = false) by (apply Z.eqb_neq; lia). rewrite Ex in Hc.
    cbn [length]. rewrite IH; auto.
  - apply Z.ltb_lt in E2. assert (Ex : (x =? 0)%Z = false) by (apply Z.eqb_neq; lia). rewrite Ex in Hc.
    cbn [length]. rewrite IH; auto.
  - rewrite Z.gtb_ltb in E1. apply Z.ltb_ge in E1. apply Z.ltb_ge in E2. assert (x = 0%Z) by lia. subst x.
    cbn [Z.eqb length] in Hc. destruct c as [|b c]; cbn [length] in Hc; [lia|]. injection Hc as Hc. cbn [length].
    rewrite IH; auto.
Qed.
Lemma list_ext {A} (l l' : list A) : (forall i, nth_error l i = nth_error l' i) -> l = l'.
Proof.
  revert l'. induction l as [|x l IH]; intros [|y l'] H; auto.
  - specialize (H 0%nat). discriminate.
  - specialize (H 0%nat). discriminate.
  - pose proof (H 0%nat) as H0. injection H0 as ->. f_equal. apply IH. intros i. apply (H (S i)).
Qed.
(** the bits of an iterator *)
Definition bits (z : nat) (it : Z) : list bool := map (fun k => Z.testbit it (Z.of_nat k)) (seq 0 z).

Lemma spins_value args hs it M :
  map (fun x => M (fst (fst x))) args = map Some hs -> distinct_outputs args ->
  ((zeros hs <= 32)%nat ->
   exists M', spinor_spins_of args it M = Ok M' /\
     outputs_of args M' = map (fun p => (Some (fst p), Some (snd p))) (spins_spec hs (bits (zeros hs) it)) /\
     (forall x, ~ In x (map (fun x => snd (fst x)) args ++ map snd args) -> M' x = M x)) /\
  ((33 <= zeros hs)%nat -> spinor_spins_of args it M = UB BadShift).
Proof.
  intros HM [HN HD]. assert (L : length args = length hs) by (rewrite <- (map_length (fun x => M (fst (fst x))) args), HM; apply map_length).
  destruct (spinor_spins_value (map (fun x => fst (fst x)) args) (map (fun x => snd (fst x)) args) (map snd args) hs it M)
    as [P1 P2]; rewrite ?map_length; auto.
  { intros i a h Ha Hh. rewrite nth_error_map in Ha. destruct (nth_error args i) as [x|] eqn:E; [|discriminate].
    injection Ha as <-. assert (Q : nth_error (map (fun x => M (fst (fst x))) args) i = nth_error (map Some hs) i) by (rewrite HM; reflexivity).
    rewrite !nth_error_map, E, Hh in Q. injection Q as ->. reflexivity. }
  unfold spinor_spins_of. rewrite L. split; [|exact P2].
  intros Hz. destruct (P1 Hz) as (M' & E & V & F). exists M'. split; [exact E|]. split; [|exact F].
  assert (LB : length (bits (zeros hs) it) = zeros hs) by (unfold bits; rewrite map_length; apply seq_length).
  apply list_ext. intros i. unfold outputs_of. rewrite !nth_error_map.
  destruct (nth_error args i) as [[[d a] b]|] eqn:Ei; cbn [option_map fst snd].
  - destruct (nth_error hs i) as [h|] eqn:Eh.
    2:{ apply nth_error_None in Eh. assert (i < length args)%nat by (apply nth_error_Some; congruence). lia. }
    rewrite (spins_spec_nth hs _ i h LB Eh). cbn [option_map].
    destruct (V i a b h) as [Va Vb]; auto; try (rewrite nth_error_map, Ei; reflexivity).
    rewrite Va, Vb. unfold pair_of. rewrite bit_testbit.
    destruct (h =? 0)%Z eqn:E0; [|reflexivity].
    assert (K : (zeros (firstn i hs) < zeros hs)%nat).
    { pose proof (zeros_S hs i h Eh) as ZS. rewrite E0 in ZS. pose proof (zeros_le hs (S i)). lia. }
    unfold bits. erewrite nth_indep by (rewrite map_length, seq_length; exact K).
    rewrite (map_nth (fun k => Z.testbit it (Z.of_nat k)) (seq 0 (zeros hs)) 0%nat), seq_nth by exact K. cbn [plus].
    destruct (Z.testbit it _); reflexivity.
  - apply nth_error_None in Ei. symmetry. replace (nth_error (spins_spec hs (bits (zeros hs) it)) i) with (@None (Z * Z)); [reflexivity|].
    symmetry. apply nth_error_None. rewrite spins_spec_length by exact LB. lia.
Qed.

Lemma bits_binary c : bits (length c) (binary c) = c.
Proof.
  apply list_ext. intros i. unfold bits. rewrite nth_error_map.
  destruct (nth_error (seq 0 (length c)) i) as [k|] eqn:E.
  - assert (K : (i < length c)%nat) by (rewrite <- (seq_length (length c) 0); apply nth_error_Some; congruence).
    pose proof (nth_error_nth _ _ 0%nat E) as N. rewrite seq_nth in N by exact K. cbn in N. subst k.
    cbn [option_map]. rewrite binary_bit by exact K. symmetry. apply nth_error_nth'. exact K.
  - apply nth_error_None in E. rewrite seq_length in E. symmetry. apply nth_error_None. exact E.
Qed.
Lemma spins_spec_inj hs : forall c c', length c = zeros hs -> length c' = zeros hs ->
  spins_spec hs c = spins_spec hs c' -> c = c'.
Proof.
  unfold zeros. induction hs as [|x l IH]; intros c c' Hc Hc' E; cbn [spins_spec filter] in *.
  - destruct c; [|discriminate]. destruct c'; [reflexivity|discriminate].
  - destruct (x >? 0)%Z eqn:E1; [|destruct (x <? 0)%Z eqn:E2].
    + rewrite Z.gtb_ltb in E1. apply Z.ltb_lt in E1. assert (Ex : (x =? 0)%Z = false) by (apply Z.eqb_neq; lia). rewrite Ex in *.
      injection E as E. auto.
    + apply Z.ltb_lt in E2. assert (Ex : (x =? 0)%Z = false) by (apply Z.eqb_neq; lia). rewrite Ex in *.
      injection E as E. auto.
    + rewrite Z.gtb_ltb in E1. apply Z.ltb_ge in E1. apply Z.ltb_ge in E2. assert (x = 0%Z) by lia. subst x.
      cbn [Z.eqb length] in *. destruct c as [|b c]; [discriminate|]. destruct c' as [|b' c']; [discriminate|].
      cbn [length] in *. injection Hc as Hc. injection Hc' as Hc'. injection E as E0 E. f_equal; auto.
      destruct b, b'; congruence.
Qed.

(** With z particles of helicity 0 (z at most 31): the iterator with binary digits c gives exactly
    the spins for the choices c, all outputs are written and nothing else is; every
    list of choices is produced by exactly one iterator below 2^z. *)
Theorem C25_spin_enumeration :
  forall (args : list (iaddr * iaddr * iaddr)) (hs : list Z) (M : imem),
    map (fun x => M (fst (fst x))) args = map Some hs -> distinct_outputs args ->
    let z := count_occ Z.eq_dec hs 0%Z in
    let gives it c := exists M', spinor_spins_of args it M = Ok M' /\
       outputs_of args M' = map (fun p => (Some (fst p), Some (snd p))) (spins_spec hs c) /\
       (forall x, ~ In x (map (fun x => snd (fst x)) args ++ map snd args) -> M' x = M x) in
    ((z <= 31)%nat ->
       (forall c, length c = z -> gives (binary c) c) /\
       (forall c, length c = z -> exists! it, (0 <= it < 2 ^ Z.of_nat z)%Z /\ gives it c) /\
       (forall it, (0 <= it < 2 ^ Z.of_nat z)%Z -> exists c, length c = z /\ gives it c)) /\
    (* the boundary of undefined behaviour *)
    ((z <= 32)%nat -> forall it, exists M', spinor_spins_of args it M = Ok M') /\
    ((33 <= z)%nat -> forall it, spinor_spins_of args it M = UB BadShift).
Proof.
  intros args hs M HM HD z gives. unfold z. rewrite <- zeros_count. fold z.
  assert (V : forall it, (zeros hs <= 32)%nat -> gives it (bits (zeros hs) it)).
  { intros it Hz. apply (proj1 (spins_value args hs it M HM HD)), Hz. }
  assert (GI : forall it c c', gives it c -> gives it c' -> length c = zeros hs -> length c' = zeros hs -> c = c').
  { intros it c c' (M1 & E1 & O1 & _) (M2 & E2 & O2 & _) L1 L2. rewrite E1 in E2. injection E2 as <-.
    rewrite O1 in O2. apply (spins_spec_inj hs); auto. 
    clear -O2. revert O2. generalize (spins_spec hs c) (spins_spec hs c').
    induction l as [|[a b] l IH]; intros [|[a' b'] l'] H; try discriminate; [reflexivity|].
    cbn [map fst snd] in H. injection H as -> -> H. f_equal. auto. }
  assert (LB : forall it, length (bits (zeros hs) it) = zeros hs) by (intros; unfold bits; rewrite map_length; apply seq_length).
  split; [|split].
  - intros Hz. assert (Hz' : (zeros hs <= 32)%nat) by lia. split; [|split].
    + intros c Hc. specialize (V (binary c) Hz'). rewrite <- Hc in V. rewrite bits_binary in V. exact V.
    + intros c Hc. exists (binary c). split.
      * split; [rewrite <- Hc; apply binary_range|]. specialize (V (binary c) Hz'). rewrite <- Hc in V. rewrite bits_binary in V. exact V.
      * intros it [Hit G]. pose proof (GI it _ _ (V it Hz') G (LB it) Hc) as E.
        apply (bits_unique (zeros hs)); [rewrite <- Hc; apply binary_range|exact Hit|].
        intros k Hk. rewrite binary_bit by lia. rewrite <- E. unfold bits.
        erewrite nth_indep by (rewrite map_length, seq_length; exact Hk).
        rewrite (map_nth (fun k => Z.testbit it (Z.of_nat k)) (seq 0 (zeros hs)) 0%nat), seq_nth by exact Hk. reflexivity.
    + intros it _. exists (bits (zeros hs) it). split; [apply LB|apply V, Hz'].
  - intros Hz it. destruct (V it Hz) as (M' & E & _). eauto.
  - intros Hz it. apply (proj2 (spins_value args hs it M HM HD)), Hz.
Qed.
Print Assumptions C25_spin_enumeration.

(** Helicities 0, 2, 0 and iterator 2: first (1,-1), then (1,1), then (-1,1); the outputs
    start uninitialised. *)
Example C25_example :
  let args := [(0, 10, 20); (1, 11, 21); (2, 12, 22)]%nat in
  let M : imem := fun a => nth a [Some 0; Some 2; Some 0]%Z None in
  distinct_outputs args /\
  exists M', spinor_spins_of args 2 M = Ok M' /\
    outputs_of args M' = [(Some 1, Some (-1)); (Some 1, Some 1); (Some (-1), Some 1)]%Z.
Proof.
  intros args M. assert (D : distinct_outputs args).
  { split; [repeat constructor; cbn; intuition discriminate|]. cbn. intuition subst; intuition discriminate. }
  split; [exact D|].
  destruct (C25_spin_enumeration args [0; 2; 0]%Z M eq_refl D) as [H _].
  destruct H as [H _]; [cbn; lia|]. destruct (H [false; true] eq_refl) as (M' & E & O & _). exists M'. split; assumption.
Qed.
