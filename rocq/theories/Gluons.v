(** * Colour sums of the processes with several gluons

    The colour tensors of q q g g and g g g g, and the sums of their products over all
    colours, computed in the field of the rational combinations of 1, sqrt 3, i and i sqrt 3. *)
From Coq Require Import Reals QArith Qreals String Ascii Lra Lia.
From Coquelicot Require Import Complex.
From Verif Require Import Base Lang SMNames SMAmp2 SpinColour.
Close Scope Q_scope.
Close Scope R_scope.
Open Scope nat_scope.

(** ** Tensors *)
Open Scope C_scope.
(** f^abc = -2 i Tr ([T^a, T^b] T^c) *)
Definition structure (a b c : nat) : C :=
  RtoC (-2) * Ci * Csum (fun i => Csum (fun j => Csum (fun k =>
    (generator a i j * generator b j k - generator b i j * generator a j k) * generator c k i)
    (seq 0 3)) (seq 0 3)) (seq 0 3).
Inductive gtensor : Type :=
| Tgg (g g' o i : nat)                (* (T^g T^g')_oi *)
| Tff (a b c d : nat).                (* sum_x f^abx f^xcd *)
Definition gtensor_at (t : gtensor) (col : list nat) : C :=
  let c k := nth k col 0%nat in
  match t with
  | Tgg g g' o i => Csum (fun k => generator (c g) (c o) k * generator (c g') k (c i)) (seq 0 3)
  | Tff p q r s => Csum (fun x => structure (c p) (c q) x * structure x (c r) (c s)) (seq 0 8)
  end.

(** ** Computing with them *)
Record k3 : Type := K3 { k_1 : Q; k_3 : Q; k_i : Q; k_i3 : Q }.
Definition kval (x : k3) : C :=
  ((Q2R (k_1 x) + Q2R (k_3 x) * sqrt 3)%R, (Q2R (k_i x) + Q2R (k_i3 x) * sqrt 3)%R).
Definition kadd (x y : k3) : k3 :=
  K3 (Qred (k_1 x + k_1 y)) (Qred (k_3 x + k_3 y)) (Qred (k_i x + k_i y)) (Qred (k_i3 x + k_i3 y)).
Definition kneg (x : k3) : k3 := K3 (- k_1 x) (- k_3 x) (- k_i x) (- k_i3 x).
Definition kmul (x y : k3) : k3 :=
  K3 (Qred (k_1 x * k_1 y + 3 * (k_3 x * k_3 y) - k_i x * k_i y - 3 * (k_i3 x * k_i3 y)))
     (Qred (k_1 x * k_3 y + k_3 x * k_1 y - k_i x * k_i3 y - k_i3 x * k_i y))
     (Qred (k_1 x * k_i y + 3 * (k_3 x * k_i3 y) + k_i x * k_1 y + 3 * (k_i3 x * k_3 y)))
     (Qred (k_1 x * k_i3 y + k_3 x * k_i y + k_i x * k_3 y + k_i3 x * k_1 y)).
Definition kconj (x : k3) : k3 := K3 (k_1 x) (k_3 x) (- k_i x) (- k_i3 x).
Definition kq (q : Q) : k3 := K3 q 0 0 0.
Fixpoint ksum {A} (f : A -> k3) (l : list A) : k3 := match l with [] => kq 0 | x :: l' => kadd (f x) (ksum f l') end.

Open Scope R_scope.
Lemma Q2R_int n : Q2R (n # 1) = IZR n.
Proof. unfold Q2R. cbn. field. Qed.
Ltac qr := rewrite ?Qred_R, ?Q2R_plus, ?Q2R_minus, ?Q2R_mult, ?Q2R_opp, ?Q2R_plus, ?Q2R_minus, ?Q2R_mult.
Lemma kadd_ok x y : kval (kadd x y) = (kval x + kval y)%C.
Proof. unfold kval, kadd, Cplus. cbn [k_1 k_3 k_i k_i3 fst snd]. rewrite !Qred_R, !Q2R_plus. f_equal; ring. Qed.
Lemma kneg_ok x : kval (kneg x) = (- kval x)%C.
Proof. unfold kval, kneg, Copp. cbn [k_1 k_3 k_i k_i3 fst snd]. rewrite !Q2R_opp. f_equal; ring. Qed.
Lemma kmul_ok x y : kval (kmul x y) = (kval x * kval y)%C.
Proof.
  assert (H : sqrt 3 * sqrt 3 = 3) by (apply sqrt_sqrt; lra).
  unfold kval, kmul, Cmult. cbn [k_1 k_3 k_i k_i3 fst snd]. rewrite !Qred_R.
  repeat rewrite ?Q2R_plus, ?Q2R_minus, ?Q2R_mult. rewrite !Q2R_int.
  generalize dependent (sqrt 3). intros r H. f_equal.
  - transitivity (Q2R (k_1 x) * Q2R (k_1 y) + r * r * (Q2R (k_3 x) * Q2R (k_3 y)) - Q2R (k_i x) * Q2R (k_i y) - r * r * (Q2R (k_i3 x) * Q2R (k_i3 y)) +
      (Q2R (k_1 x) * Q2R (k_3 y) + Q2R (k_3 x) * Q2R (k_1 y) - Q2R (k_i x) * Q2R (k_i3 y) - Q2R (k_i3 x) * Q2R (k_i y)) * r); [rewrite H; ring|ring].
  - transitivity (Q2R (k_1 x) * Q2R (k_i y) + r * r * (Q2R (k_3 x) * Q2R (k_i3 y)) + Q2R (k_i x) * Q2R (k_1 y) + r * r * (Q2R (k_i3 x) * Q2R (k_3 y)) +
      (Q2R (k_1 x) * Q2R (k_i3 y) + Q2R (k_3 x) * Q2R (k_i y) + Q2R (k_i x) * Q2R (k_3 y) + Q2R (k_i3 x) * Q2R (k_1 y)) * r); [rewrite H; ring|ring].
Qed.
Lemma kconj_ok x : kval (kconj x) = Cconj (kval x).
Proof. unfold kval, kconj, Cconj. cbn [k_1 k_3 k_i k_i3 fst snd]. rewrite !Q2R_opp. f_equal; ring. Qed.
Lemma kq_ok q : kval (kq q) = RtoC (Q2R q).
Proof. unfold kval, kq, RtoC. cbn [k_1 k_3 k_i k_i3]. rewrite RMicromega.Q2R_0. f_equal; ring. Qed.
Lemma ksum_ok {A} (f : A -> k3) (g : A -> C) : (forall x, kval (f x) = g x) -> forall l, kval (ksum f l) = Csum g l.
Proof.
  intros H. induction l as [|x l IH]; cbn [ksum Csum].
  - rewrite kq_ok, RMicromega.Q2R_0. reflexivity.
  - rewrite kadd_ok, IH, H. reflexivity.
Qed.

(** the generators *)
Definition kgell_mann (a i j : nat) : k3 :=
  match a, i, j with
  | 0, 0, 1 => kq 1 | 0, 1, 0 => kq 1
  | 1, 0, 1 => K3 0 0 (-1) 0 | 1, 1, 0 => K3 0 0 1 0
  | 2, 0, 0 => kq 1 | 2, 1, 1 => kq (-1)
  | 3, 0, 2 => kq 1 | 3, 2, 0 => kq 1
  | 4, 0, 2 => K3 0 0 (-1) 0 | 4, 2, 0 => K3 0 0 1 0
  | 5, 1, 2 => kq 1 | 5, 2, 1 => kq 1
  | 6, 1, 2 => K3 0 0 (-1) 0 | 6, 2, 1 => K3 0 0 1 0
  | 7, 0, 0 => K3 0 (1 # 3) 0 0 | 7, 1, 1 => K3 0 (1 # 3) 0 0 | 7, 2, 2 => K3 0 (-2 # 3) 0 0
  | _, _, _ => kq 0
  end%nat.
Lemma r3_val : r3 = / 3 * sqrt 3.
Proof.
  assert (H : sqrt 3 * sqrt 3 = 3) by (apply sqrt_sqrt; lra). assert (sqrt 3 <> 0) by (apply Rgt_not_eq, sqrt_lt_R0; lra).
  unfold r3. field_simplify_eq; [|assumption]. rewrite <- Rsqr_pow2. unfold Rsqr. lra.
Qed.
Lemma kgell_mann_ok a i j : kval (kgell_mann a i j) = gell_mann a i j.
Proof.
  pose proof r3_val as H.
  destruct a as [|[|[|[|[|[|[|[|a]]]]]]]]; destruct i as [|[|[|i]]]; destruct j as [|[|[|j]]];
    (unfold kgell_mann, gell_mann, kval, kq, RtoC, Ci, Copp, Q2R; cbn; rewrite ?H; f_equal; lra).
Qed.
Definition kgen (a i j : nat) : k3 := kmul (kq (1 # 2)) (kgell_mann a i j).
Lemma kgen_ok a i j : kval (kgen a i j) = generator a i j.
Proof.
  unfold kgen, generator. rewrite kmul_ok, kgell_mann_ok, kq_ok. f_equal. f_equal. unfold Q2R. cbn. lra.
Qed.
Definition kf (a b c : nat) : k3 :=
  kmul (K3 0 0 (-2) 0) (ksum (fun i => ksum (fun j => ksum (fun k =>
    kmul (kadd (kmul (kgen a i j) (kgen b j k)) (kneg (kmul (kgen b i j) (kgen a j k)))) (kgen c k i))
    (seq 0 3)) (seq 0 3)) (seq 0 3)).
Lemma kf_ok a b c : kval (kf a b c) = structure a b c.
Proof.
  unfold kf, structure. rewrite kmul_ok. f_equal.
  - unfold kval, RtoC, Ci, Cmult, Q2R. cbn. f_equal; lra.
  - apply ksum_ok. intros i. apply ksum_ok. intros j. apply ksum_ok. intros k.
    rewrite kmul_ok, kadd_ok, kneg_ok, !kmul_ok, !kgen_ok. reflexivity.
Qed.
(** f^abc looked up in a table *)
Definition ftab : list (list (list k3)) :=
  map (fun a => map (fun b => map (fun c => kf a b c) (seq 0 8)) (seq 0 8)) (seq 0 8).
Definition flook (tab : list (list (list k3))) (a b c : nat) : option k3 :=
  match nth_error tab a with
  | Some l => match nth_error l b with Some l' => nth_error l' c | None => None end
  | None => None
  end.
Lemma nth_map_seq {A} (f : nat -> A) n : forall s k x, nth_error (map f (seq s n)) k = Some x -> x = f (s + k)%nat.
Proof.
  induction n as [|n IH]; intros s [|k] x; cbn; try discriminate.
  - intros [= <-]. f_equal. lia.
  - intros E. rewrite (IH _ _ _ E). f_equal. lia.
Qed.
Lemma flook_ok a b c x : flook ftab a b c = Some x -> kval x = structure a b c.
Proof.
  unfold flook, ftab. destruct (nth_error (map _ (seq 0 8)) a) as [l|] eqn:E1; [|discriminate].
  rewrite (nth_map_seq _ _ _ _ _ E1). cbn [Nat.add]. destruct (nth_error _ b) as [l'|] eqn:E2; [|discriminate].
  rewrite (nth_map_seq _ _ _ _ _ E2). cbn [Nat.add]. intros E3. rewrite (nth_map_seq _ _ _ _ _ E3). apply kf_ok.
Qed.
Fixpoint kosum {A} (f : A -> option k3) (l : list A) : option k3 :=
  match l with
  | [] => Some (kq 0)
  | x :: l' => match f x, kosum f l' with Some a, Some b => Some (kadd a b) | _, _ => None end
  end.
Lemma kosum_ok {A} (f : A -> option k3) (g : A -> C) : (forall x k, f x = Some k -> kval k = g x) ->
  forall l k, kosum f l = Some k -> kval k = Csum g l.
Proof.
  intros H. induction l as [|x l IH]; cbn [kosum Csum]; intros k.
  - intros [= <-]. rewrite kq_ok, RMicromega.Q2R_0. reflexivity.
  - destruct (f x) as [a|] eqn:E; [|discriminate]. destruct (kosum f l) as [b|]; [|discriminate].
    intros Ek. assert (Ek' : k = kadd a b) by (revert Ek; generalize (kadd a b); intros z [= <-]; reflexivity).
    rewrite Ek', kadd_ok, (IH b eq_refl), (H x a E). reflexivity.
Qed.
Definition komul (a b : option k3) : option k3 := match a, b with Some x, Some y => Some (kmul x y) | _, _ => None end.
Lemma komul_ok a b k u w : (forall x, a = Some x -> kval x = u) -> (forall x, b = Some x -> kval x = w) ->
  komul a b = Some k -> kval k = (u * w)%C.
Proof.
  intros Ha Hb. destruct a as [x|]; [|discriminate]. destruct b as [y|]; [|discriminate]. cbn [komul]. intros Ek.
  assert (Ek' : k = kmul x y) by (revert Ek; generalize (kmul x y); intros z [= <-]; reflexivity).
  rewrite Ek', kmul_ok, (Ha x eq_refl), (Hb y eq_refl). reflexivity.
Qed.
Definition kt (tab : list (list (list k3))) (t : gtensor) (col : list nat) : option k3 :=
  let c k := nth k col 0%nat in
  match t with
  | Tgg g g' o i => Some (ksum (fun k => kmul (kgen (c g) (c o) k) (kgen (c g') k (c i))) (seq 0 3))
  | Tff p q r s => kosum (fun x => komul (flook tab (c p) (c q) x) (flook tab x (c r) (c s))) (seq 0 8)
  end.
Lemma kt_ok t col k : kt ftab t col = Some k -> kval k = gtensor_at t col.
Proof.
  destruct t as [g g' o i|p q r s]; cbn [kt gtensor_at].
  - intros Ek. assert (Ek' : k = ksum (fun k => kmul (kgen (nth g col 0%nat) (nth o col 0%nat) k) (kgen (nth g' col 0%nat) k (nth i col 0%nat))) (seq 0 3))
      by (revert Ek; generalize (ksum (fun k => kmul (kgen (nth g col 0%nat) (nth o col 0%nat) k) (kgen (nth g' col 0%nat) k (nth i col 0%nat))) (seq 0 3)); intros z [= <-]; reflexivity).
    rewrite Ek'. apply ksum_ok. intros j. rewrite kmul_ok, !kgen_ok. reflexivity.
  - apply kosum_ok. intros x j. apply komul_ok; intros y; apply flook_ok.
Qed.
Definition kgram (tab : list (list (list k3))) (t t' : gtensor) (cs : list (list nat)) : option k3 :=
  kosum (fun col => komul (kt tab t col) (match kt tab t' col with Some x => Some (kconj x) | None => None end)) cs.
Lemma kgram_ok t t' cs k : kgram ftab t t' cs = Some k -> kval k = Csum (fun col => (gtensor_at t col * Cconj (gtensor_at t' col))%C) cs.
Proof.
  apply kosum_ok. intros col j. apply komul_ok; [intros x; apply kt_ok|].
  intros x. destruct (kt ftab t' col) as [y|] eqn:E; [|discriminate]. intros [= <-]. rewrite kconj_ok, (kt_ok _ _ _ E). reflexivity.
Qed.
Definition is_rat (q : Q) (k : option k3) : bool :=
  match k with Some x => Qeq_bool (k_1 x) q && Qeq_bool (k_3 x) 0 && Qeq_bool (k_i x) 0 && Qeq_bool (k_i3 x) 0 | None => false end.
Lemma is_rat_ok q t t' cs : is_rat q (kgram ftab t t' cs) = true ->
  Csum (fun col => (gtensor_at t col * Cconj (gtensor_at t' col))%C) cs = RtoC (Q2R q).
Proof.
  unfold is_rat. destruct (kgram ftab t t' cs) as [k|] eqn:E; [|discriminate]. intros H.
  repeat (apply andb_prop in H as [H ?]). rewrite <- (kgram_ok _ _ _ _ E). unfold kval, RtoC.
  repeat match goal with H : Qeq_bool _ _ = true |- _ => apply Qeq_bool_eq, Qeq_eqR in H end.
  rewrite H, H0, H1, H2, RMicromega.Q2R_0. f_equal; ring.
Qed.

(** the sum of |t z + t' w|^2 over colours *)
Definition csum_ok (t t' : gtensor) (cs : list (list nat)) (q q' q'' : Q) : bool :=
  is_rat q (kgram ftab t t cs) && is_rat q' (kgram ftab t' t' cs) && is_rat q'' (kgram ftab t t' cs).
Lemma two_tensors t t' cs q q' q'' (z w : C) : csum_ok t t' cs q q' q'' = true ->
  Rsum (fun col => Cmod (gtensor_at t col * z + gtensor_at t' col * w)%C ^ 2) cs =
  Q2R q * Cmod z ^ 2 + Q2R q' * Cmod w ^ 2 + 2 * Q2R q'' * Re (z * Cconj w)%C.
Proof.
  unfold csum_ok. intros H. apply andb_prop in H as [H H3]. apply andb_prop in H as [H1 H2].
  apply is_rat_ok in H1, H2, H3.
  assert (RE : forall (f : list nat -> C) l, Re (Csum f l) = Rsum (fun x => Re (f x)) l).
  { induction l; cbn [Csum Rsum]; [reflexivity|]. rewrite <- IHl. destruct (f a), (Csum f l). reflexivity. }
  assert (IM : forall (f : list nat -> C) l, Im (Csum f l) = Rsum (fun x => Im (f x)) l).
  { induction l; cbn [Csum Rsum]; [reflexivity|]. rewrite <- IHl. destruct (f a), (Csum f l). reflexivity. }
  pose proof (f_equal Re H1) as R1. pose proof (f_equal Re H2) as R2. pose proof (f_equal Re H3) as R3. pose proof (f_equal Im H3) as I3.
  rewrite RE in R1, R2, R3. rewrite IM in I3. change (Re (RtoC (Q2R q))) with (Q2R q) in R1.
  change (Re (RtoC (Q2R q'))) with (Q2R q') in R2. change (Re (RtoC (Q2R q''))) with (Q2R q'') in R3. change (Im (RtoC (Q2R q''))) with 0 in I3.
  transitivity (Cmod z ^ 2 * Rsum (fun x => Re (gtensor_at t x * Cconj (gtensor_at t x))%C) cs +
    Cmod w ^ 2 * Rsum (fun x => Re (gtensor_at t' x * Cconj (gtensor_at t' x))%C) cs +
    (2 * Re (z * Cconj w)%C * Rsum (fun x => Re (gtensor_at t x * Cconj (gtensor_at t' x))%C) cs +
     -2 * Im (z * Cconj w)%C * Rsum (fun x => Im (gtensor_at t x * Cconj (gtensor_at t' x))%C) cs)).
  - rewrite <- !Rsum_mult, <- !Rsum_plus. apply Rsum_ext. intros col _.
    rewrite !Cmod2. destruct (gtensor_at t col), (gtensor_at t' col), z, w. cbn. ring.
  - rewrite R1, R2, R3, I3. ring.
Qed.
