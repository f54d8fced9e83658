(** * Rotations of the spins

    Definitions and lemmas behind C47, used in proofs only: a sum over spins of squares does
    not change when the spins of the legs are rotated.  The amplitudes of a process are
    collected in a form in one pair of variables per massive leg, whose coefficients (up to
    the factors sqrt 2 of spin 1) they are. *)
From Coq Require Import Reals QArith String Ascii Lra Lia.
From Coquelicot Require Import Complex.
From Verif Require Import Base Scalar RealNum Lang SMAmp2 SpinColour Poly Covariant.
Close Scope Q_scope.
Close Scope R_scope.
Open Scope nat_scope.

Definition zvars : Type := nat -> bool -> C.
Definition rt2 : C := RtoC (sqrt 2).
Fixpoint form_of (ks : list lkind) (F : list (list Z) -> C) (z : zvars) (p : nat) (top : list (list Z)) : C :=
  match ks, top with
  | k :: ks', s :: top' =>
      match k with
      | Lhalf => z p true * form_of ks' (fun t => F ([1%Z] :: t)) z (S p) top' +
                 z p false * form_of ks' (fun t => F ([(-1)%Z] :: t)) z (S p) top'
      | Lone => z p true * z p true * form_of ks' (fun t => F ([2%Z] :: t)) z (S p) top' +
                rt2 * (z p true * z p false) * form_of ks' (fun t => F ([0%Z] :: t)) z (S p) top' +
                z p false * z p false * form_of ks' (fun t => F ([(-2)%Z] :: t)) z (S p) top'
      | Lfixed _ => form_of ks' (fun t => F (s :: t)) z (S p) top'
      end
  | _, _ => F []
  end%C.

(** rotated variables: unitary matrices of determinant 1, one for every leg *)
Definition turned (a b : nat -> C) (z : zvars) : zvars := fun p u =>
  (if u then Cconj (a p) * z p true + b p * z p false else - Cconj (b p) * z p true + a p * z p false)%C.
(** what this does to the coefficients *)
Fixpoint rot (a b : nat -> C) (ks : list lkind) (F : list (list Z) -> C) (p : nat) (s : list (list Z)) : C :=
  match ks, s with
  | k :: ks', x :: s' =>
      let G y := rot a b ks' (fun t => F ([y] :: t)) (S p) s' in
      match k, x with
      | Lhalf, [1%Z] => Cconj (a p) * G 1%Z - Cconj (b p) * G (-1)%Z
      | Lhalf, [(-1)%Z] => b p * G 1%Z + a p * G (-1)%Z
      | Lone, [2%Z] => Cconj (a p) * Cconj (a p) * G 2%Z - rt2 * (Cconj (a p) * Cconj (b p)) * G 0%Z + Cconj (b p) * Cconj (b p) * G (-2)%Z
      | Lone, [0%Z] => rt2 * (Cconj (a p) * b p) * G 2%Z + (Cconj (a p) * a p - b p * Cconj (b p)) * G 0%Z - rt2 * (Cconj (b p) * a p) * G (-2)%Z
      | Lone, [(-2)%Z] => b p * b p * G 2%Z + rt2 * (b p * a p) * G 0%Z + a p * a p * G (-2)%Z
      | Lfixed _, _ => rot a b ks' (fun t => F (x :: t)) (S p) s'
      | _, _ => RtoC 0
      end
  | _, _ => F []
  end%C.

Lemma rt2_sq : Cmult rt2 rt2 = RtoC 2.
Proof. unfold rt2. rewrite <- RtoC_mult, sqrt_sqrt by lra. reflexivity. Qed.
Lemma form_ext ks : forall F G z p top, (forall s, In s (spins ks top) -> F s = G s) -> form_of ks F z p top = form_of ks G z p top.
Proof.
  induction ks as [|k ks IH]; intros F G z p top H.
  - cbn [form_of]. apply H. cbn. auto.
  - destruct top as [|x top]; [apply H; cbn; auto|].
    cbn [form_of spins] in *.
    assert (K : forall y, In y (match k with Lhalf => [[-1]; [1]] | Lone => [[-2]; [0]; [2]] | Lfixed _ => [x] end%Z) ->
      form_of ks (fun t => F (y :: t)) z (S p) top = form_of ks (fun t => G (y :: t)) z (S p) top).
    { intros y Hy. apply IH. intros s Hs. apply H. apply in_flat_map. exists y. split; [exact Hy|]. apply in_map. exact Hs. }
    destruct k; cbn [In] in K; rewrite ?(K [1%Z]), ?(K [(-1)%Z]), ?(K [2%Z]), ?(K [0%Z]), ?(K [(-2)%Z]), ?(K x) by auto; reflexivity.
Qed.
Lemma form_scale ks : forall F l z p top, form_of ks (fun s => Cmult l (F s)) z p top = Cmult l (form_of ks F z p top).
Proof.
  induction ks as [|k ks IH]; intros F l z p top; [reflexivity|].
  destruct top as [|x top]; [reflexivity|]. cbn [form_of]. destruct k.
  - rewrite (IH (fun t => F ([1%Z] :: t))), (IH (fun t => F ([(-1)%Z] :: t))). ring.
  - rewrite (IH (fun t => F ([2%Z] :: t))), (IH (fun t => F ([0%Z] :: t))), (IH (fun t => F ([(-2)%Z] :: t))). ring.
  - apply (IH (fun t => F (x :: t))).
Qed.
Lemma form_add ks : forall F G z p top, form_of ks (fun s => Cplus (F s) (G s)) z p top = Cplus (form_of ks F z p top) (form_of ks G z p top).
Proof.
  induction ks as [|k ks IH]; intros F G z p top; [reflexivity|].
  destruct top as [|x top]; [reflexivity|]. cbn [form_of]. destruct k.
  - rewrite (IH (fun t => F ([1%Z] :: t))), (IH (fun t => F ([(-1)%Z] :: t))). ring.
  - rewrite (IH (fun t => F ([2%Z] :: t))), (IH (fun t => F ([0%Z] :: t))), (IH (fun t => F ([(-2)%Z] :: t))). ring.
  - apply (IH (fun t => F (x :: t))).
Qed.
Lemma form_zero ks z p top : form_of ks (fun _ => RtoC 0) z p top = RtoC 0.
Proof.
  transitivity (form_of ks (fun _ => Cmult (RtoC 0) (RtoC 0)) z p top).
  - apply form_ext. intros s _. ring.
  - rewrite (form_scale ks (fun _ => RtoC 0)). ring.
Qed.
Lemma form_sum ks {A} (f : A -> list (list Z) -> C) z p top : forall l,
  form_of ks (fun s => Csum (fun x => f x s) l) z p top = Csum (fun x => form_of ks (f x) z p top) l.
Proof.
  induction l as [|x l IH]; cbn [Csum]; [apply form_zero|]. rewrite <- IH. apply (form_add ks (f x) (fun s => Csum (fun x => f x s) l)).
Qed.

(** the coefficients are determined by the form *)
Lemma form_z ks : forall F z z' p top, (forall r u, p <= r -> z r u = z' r u) -> form_of ks F z p top = form_of ks F z' p top.
Proof.
  induction ks as [|k ks IH]; intros F z z' p top H; [reflexivity|].
  destruct top as [|x top]; [reflexivity|]. cbn [form_of].
  assert (K : forall G, form_of ks G z (S p) top = form_of ks G z' (S p) top) by (intros G; apply IH; intros r u Hr; apply H; lia).
  rewrite !H by lia. destruct k; rewrite !K; reflexivity.
Qed.
Definition setz (z : zvars) (p : nat) (x y : C) : zvars := fun r u => if Nat.eqb r p then (if u then x else y) else z r u.
Lemma setz_at z p x y u : setz z p x y p u = if u then x else y.
Proof. unfold setz. rewrite Nat.eqb_refl. reflexivity. Qed.
Lemma form_setz ks F z p x y top : form_of ks F (setz z p x y) (S p) top = form_of ks F z (S p) top.
Proof. apply form_z. intros r u Hr. unfold setz. destruct (Nat.eqb_spec r p); [lia|reflexivity]. Qed.
Lemma form_unique ks : forall F G p top, (forall z, form_of ks F z p top = form_of ks G z p top) ->
  forall s, In s (spins ks top) -> F s = G s.
Proof.
  induction ks as [|k ks IH]; intros F G p top H s Hs.
  - cbn in Hs. destruct Hs as [<-|[]]. exact (H (fun _ _ => RtoC 0)).
  - destruct top as [|x top]; [cbn in Hs; destruct Hs as [<-|[]]; exact (H (fun _ _ => RtoC 0))|].
    cbn [spins] in Hs. apply in_flat_map in Hs as (y & Hy & Hs). apply in_map_iff in Hs as (t & <- & Ht).
    cbn [form_of] in H.
    destruct k.
    + apply (IH (fun t => F (y :: t)) (fun t => G (y :: t)) (S p) top); [|exact Ht]. intros z. destruct Hy as [<-|[<-|[]]].
      * pose proof (H (setz z p (RtoC 0) (RtoC 1))) as K. rewrite !setz_at, !form_setz in K. rewrite !Cmult_0_l, !Cplus_0_l, !Cmult_1_l in K. exact K.
      * pose proof (H (setz z p (RtoC 1) (RtoC 0))) as K. rewrite !setz_at, !form_setz in K. rewrite !Cmult_0_l, !Cplus_0_r, !Cmult_1_l in K. exact K.
    + apply (IH (fun t => F (y :: t)) (fun t => G (y :: t)) (S p) top); [|exact Ht]. intros z.
      pose proof (H (setz z p (RtoC 0) (RtoC 1))) as K1. rewrite !setz_at, !form_setz in K1.
      repeat (rewrite Cmult_0_l in K1 || rewrite Cmult_0_r in K1 || rewrite Cplus_0_l in K1 || rewrite Cmult_1_l in K1).
      pose proof (H (setz z p (RtoC 1) (RtoC 0))) as K2. rewrite !setz_at, !form_setz in K2.
      repeat (rewrite Cmult_0_r in K2 || rewrite Cmult_0_l in K2 || rewrite Cplus_0_r in K2 || rewrite Cmult_1_l in K2).
      pose proof (H (setz z p (RtoC 1) (RtoC 1))) as K3. rewrite !setz_at, !form_setz in K3. rewrite K1, K2 in K3. rewrite !Cmult_1_l, !Cmult_1_r in K3.
      destruct Hy as [<-|[<-|[<-|[]]]]; [exact K1| |exact K2].
      assert (E : Cmult rt2 (form_of ks (fun t => F ([0%Z] :: t)) z (S p) top) = Cmult rt2 (form_of ks (fun t => G ([0%Z] :: t)) z (S p) top)).
      { set (u := form_of ks (fun t => G ([2%Z] :: t)) z (S p) top) in *. set (w := form_of ks (fun t => G ([(-2)%Z] :: t)) z (S p) top) in *.
        set (x0 := Cmult rt2 _) in *. set (y0 := Cmult rt2 _) in *.
        replace x0 with (u + x0 + w - u - w)%C by ring. rewrite K3. ring. }
      assert (E2 : Cmult (Cmult rt2 rt2) (form_of ks (fun t => F ([0%Z] :: t)) z (S p) top) = Cmult (Cmult rt2 rt2) (form_of ks (fun t => G ([0%Z] :: t)) z (S p) top)).
      { rewrite <- !Cmult_assoc, E. reflexivity. }
      rewrite rt2_sq in E2.
      assert (E3 : forall v : C, v = Cmult (RtoC (/ 2)) (Cmult (RtoC 2) v)).
      { intros v. rewrite Cmult_assoc, <- RtoC_mult. replace (/ 2 * 2)%R with 1%R by field. ring. }
      rewrite (E3 (form_of ks (fun t => F ([0%Z] :: t)) z (S p) top)), E2, <- E3. reflexivity.
    + destruct Hy as [<-|[]]. apply (IH (fun t => F (x :: t)) (fun t => G (x :: t)) (S p) top); [|exact Ht]. exact H.
Qed.
(** rotating the variables is rotating the coefficients *)
Lemma form_turned a b ks : forall F z p top,
  form_of ks F (turned a b z) p top = form_of ks (rot a b ks F p) z p top.
Proof.
  induction ks as [|k ks IH]; intros F z p top; [reflexivity|].
  destruct top as [|x top]; [reflexivity|]. cbn [form_of]. destruct k.
  - rewrite !IH. cbn [rot].
    set (G1 := rot a b ks (fun t => F ([1%Z] :: t)) (S p)). set (G2 := rot a b ks (fun t => F ([(-1)%Z] :: t)) (S p)).
    replace (form_of ks (fun t => Cminus (Cmult (Cconj (a p)) (G1 t)) (Cmult (Cconj (b p)) (G2 t))) z (S p) top) with
      (Cminus (Cmult (Cconj (a p)) (form_of ks G1 z (S p) top)) (Cmult (Cconj (b p)) (form_of ks G2 z (S p) top))).
    2:{ rewrite <- !form_scale. unfold Cminus. replace (Copp (form_of ks (fun s => Cmult (Cconj (b p)) (G2 s)) z (S p) top)) with (Cmult (Copp (RtoC 1)) (form_of ks (fun s => Cmult (Cconj (b p)) (G2 s)) z (S p) top)) by ring.
        rewrite <- form_scale, <- form_add. apply form_ext. intros s _. ring. }
    replace (form_of ks (fun t => Cplus (Cmult (b p) (G1 t)) (Cmult (a p) (G2 t))) z (S p) top) with
      (Cplus (Cmult (b p) (form_of ks G1 z (S p) top)) (Cmult (a p) (form_of ks G2 z (S p) top))) by (rewrite <- !form_scale, <- form_add; reflexivity).
    unfold turned. ring.
  - rewrite !IH. cbn [rot].
    set (G1 := rot a b ks (fun t => F ([2%Z] :: t)) (S p)). set (G2 := rot a b ks (fun t => F ([0%Z] :: t)) (S p)).
    set (G3 := rot a b ks (fun t => F ([(-2)%Z] :: t)) (S p)).
    assert (K : forall x y w, form_of ks (fun t => Cplus (Cplus (Cmult x (G1 t)) (Cmult y (G2 t))) (Cmult w (G3 t))) z (S p) top =
      Cplus (Cplus (Cmult x (form_of ks G1 z (S p) top)) (Cmult y (form_of ks G2 z (S p) top))) (Cmult w (form_of ks G3 z (S p) top))).
    { intros x0 y0 w0. rewrite <- !form_scale, <- !form_add. reflexivity. }
    rewrite (form_ext ks (fun t => Cplus (Cminus _ _) _) (fun t => Cplus (Cplus (Cmult (Cmult (Cconj (a p)) (Cconj (a p))) (G1 t)) (Cmult (Copp (Cmult rt2 (Cmult (Cconj (a p)) (Cconj (b p))))) (G2 t))) (Cmult (Cmult (Cconj (b p)) (Cconj (b p))) (G3 t)))) by (intros; ring).
    rewrite (form_ext ks (fun t => Cminus (Cplus _ _) _) (fun t => Cplus (Cplus (Cmult (Cmult rt2 (Cmult (Cconj (a p)) (b p))) (G1 t)) (Cmult (Cminus (Cmult (Cconj (a p)) (a p)) (Cmult (b p) (Cconj (b p)))) (G2 t))) (Cmult (Copp (Cmult rt2 (Cmult (Cconj (b p)) (a p)))) (G3 t)))) by (intros; ring).
    rewrite !K. unfold turned. generalize (form_of ks G1 z (S p) top) (form_of ks G2 z (S p) top) (form_of ks G3 z (S p) top). intros g1 g2 g3.
    generalize (a p) (Cconj (a p)) (b p) (Cconj (b p)) (z p true) (z p false). intros x1 x2 x3 x4 z1 z2.
    pose proof rt2_sq as E.
    replace (RtoC 2) with (Cplus (RtoC 1) (RtoC 1)) in E by (rewrite <- RtoC_plus; f_equal; lra).
    transitivity (((x2 * z1 + x3 * z2) * (x2 * z1 + x3 * z2)) * g1 + (rt2 * ((x2 * z1 + x3 * z2) * (- x4 * z1 + x1 * z2))) * g2 + ((- x4 * z1 + x1 * z2) * (- x4 * z1 + x1 * z2)) * g3)%C; [ring|].
    transitivity (z1 * z1 * (x2 * x2 * g1 + - (rt2 * (x2 * x4)) * g2 + x4 * x4 * g3) + (z1 * z2) * ((rt2 * rt2) * (x2 * x3) * g1 + rt2 * (x2 * x1 - x3 * x4) * g2 + - ((rt2 * rt2) * (x4 * x1)) * g3) + z2 * z2 * (x3 * x3 * g1 + rt2 * (x3 * x1) * g2 + x1 * x1 * g3))%C; [|ring].
    rewrite E. ring.
  - apply (IH (fun t => F (x :: t))).
Qed.

(** ** Sums *)
Open Scope R_scope.
Notation sq F := (fun s => Cmod (F s) ^ 2).
Lemma Csum_map {A B} (f : B -> C) (g : A -> B) l : Csum f (map g l) = Csum (fun x => f (g x)) l.
Proof. induction l; cbn; [reflexivity|rewrite IHl; reflexivity]. Qed.
Lemma Csum_app {A} (f : A -> C) l l' : Csum f (l ++ l') = Cplus (Csum f l) (Csum f l').
Proof. induction l; cbn; [ring|rewrite IHl; ring]. Qed.
Lemma Csum_flat {A B} (f : B -> C) (g : A -> list B) l : Csum f (flat_map g l) = Csum (fun x => Csum f (g x)) l.
Proof. induction l; cbn; [reflexivity|rewrite Csum_app, IHl; reflexivity]. Qed.
Lemma Csum_scale {A} (f : A -> C) k l : Csum (fun x => Cmult k (f x)) l = Cmult k (Csum f l).
Proof. induction l; cbn; [ring|rewrite IHl; ring]. Qed.
Lemma Csum_ext {A} (f g : A -> C) l : (forall x, In x l -> f x = g x) -> Csum f l = Csum g l.
Proof.
  induction l as [|a l IH]; cbn [Csum]; intros H; [reflexivity|].
  rewrite (H a (or_introl eq_refl)), IH; [reflexivity|]. intros x Hx. apply H. right. exact Hx.
Qed.

Lemma half_unitary (a b x y : C) : Cplus (Cmult a (Cconj a)) (Cmult b (Cconj b)) = RtoC 1 ->
  Cmod (Cplus (Cmult b x) (Cmult a y)) ^ 2 + Cmod (Cminus (Cmult (Cconj a) x) (Cmult (Cconj b) y)) ^ 2 = Cmod x ^ 2 + Cmod y ^ 2.
Proof.
  intros H. apply (f_equal fst) in H. destruct a as [a1 a2], b as [b1 b2], x as [x1 x2], y as [y1 y2]. rewrite !Cmod2. cbn in H |- *.
  assert (N : a1 * a1 + a2 * a2 + b1 * b1 + b2 * b2 = 1) by lra. clear H.
  transitivity ((a1 * a1 + a2 * a2 + b1 * b1 + b2 * b2) * (x1 * x1 + x2 * x2 + y1 * y1 + y2 * y2)); [ring|]. rewrite N. ring.
Qed.
Lemma one_unitary (a b x y w : C) : Cplus (Cmult a (Cconj a)) (Cmult b (Cconj b)) = RtoC 1 ->
  Cmod (b * b * x + rt2 * (b * a) * y + a * a * w)%C ^ 2 +
  (Cmod (rt2 * (Cconj a * b) * x + (Cconj a * a - b * Cconj b) * y - rt2 * (Cconj b * a) * w)%C ^ 2 +
   Cmod (Cconj a * Cconj a * x - rt2 * (Cconj a * Cconj b) * y + Cconj b * Cconj b * w)%C ^ 2) =
  Cmod w ^ 2 + (Cmod y ^ 2 + Cmod x ^ 2).
Proof.
  intros H. apply (f_equal fst) in H. destruct a as [a1 a2], b as [b1 b2], x as [x1 x2], y as [y1 y2], w as [w1 w2].
  rewrite !Cmod2. unfold rt2. assert (S : sqrt 2 * sqrt 2 = 2) by (apply sqrt_sqrt; lra). revert S. generalize (sqrt 2). intros r S.
  cbn in H |- *.
  assert (N : a1 * a1 + a2 * a2 + b1 * b1 + b2 * b2 = 1) by lra. clear H.
  transitivity ((a1 * a1 + a2 * a2 + b1 * b1 + b2 * b2) * (a1 * a1 + a2 * a2 + b1 * b1 + b2 * b2) * (x1 * x1 + x2 * x2 + y1 * y1 + y2 * y2 + w1 * w1 + w2 * w2)); [|rewrite N; ring].
  clear N. ring [S].
Qed.
Lemma rot_squares a b ks : (forall p, Cplus (Cmult (a p) (Cconj (a p))) (Cmult (b p) (Cconj (b p))) = RtoC 1) ->
  forall F p top, Rsum (sq (rot a b ks F p)) (spins ks top) = Rsum (sq F) (spins ks top).
Proof.
  intros HU. induction ks as [|k ks IH]; intros F p top; [reflexivity|].
  destruct top as [|x top]; [reflexivity|]. cbn [spins]. rewrite !Rsum_flat. destruct k; cbn [Rsum]; rewrite !Rsum_map.
  - cbn [rot]. rewrite !Rplus_0_r.
    rewrite <- (IH (fun t => F ([1%Z] :: t)) (S p) top), <- (IH (fun t => F ([(-1)%Z] :: t)) (S p) top), <- !Rsum_plus.
    apply Rsum_ext. intros s _. cbv beta. rewrite (half_unitary _ _ _ _ (HU p)). ring.
  - cbn [rot]. rewrite !Rplus_0_r.
    rewrite <- (IH (fun t => F ([2%Z] :: t)) (S p) top), <- (IH (fun t => F ([0%Z] :: t)) (S p) top), <- (IH (fun t => F ([(-2)%Z] :: t)) (S p) top), <- !Rsum_plus.
    apply Rsum_ext. intros s _. cbv beta. apply (one_unitary _ _ _ _ _ (HU p)).
  - rewrite !Rplus_0_r. apply (IH (fun t => F (x :: t))).
Qed.
Lemma unit_mod (l z : C) : Cmult l (Cconj l) = RtoC 1 -> Cmod (Cmult l z) ^ 2 = Cmod z ^ 2.
Proof.
  intros H. apply (f_equal fst) in H. destruct l as [l1 l2], z as [z1 z2]. rewrite !Cmod2. cbn in H |- *.
  assert (N : l1 * l1 + l2 * l2 = 1) by lra. clear H.
  transitivity ((l1 * l1 + l2 * l2) * (z1 * z1 + z2 * z2)); [ring|]. rewrite N. ring.
Qed.
(** the sum over the spins of the massive legs *)
Lemma forms_squares a b ks F F' top : (forall p, Cplus (Cmult (a p) (Cconj (a p))) (Cmult (b p) (Cconj (b p))) = RtoC 1) ->
  (exists l, Cmult l (Cconj l) = RtoC 1 /\ forall z, form_of ks F z 0 top = Cmult l (form_of ks F' (turned a b z) 0 top)) ->
  Rsum (sq F) (spins ks top) = Rsum (sq F') (spins ks top).
Proof.
  intros HU (l & Hl & H).
  assert (K : forall s, In s (spins ks top) -> F s = Cmult l (rot a b ks F' 0 s)).
  { apply (form_unique ks F (fun s => Cmult l (rot a b ks F' 0 s)) 0 top). intros z. rewrite H, form_turned, form_scale. reflexivity. }
  rewrite <- (rot_squares a b ks HU F' 0 top). apply Rsum_ext. intros s Hs. cbv beta. rewrite (K s Hs), (unit_mod _ _ Hl). reflexivity.
Qed.
Lemma Rsum_single {A} (f : A -> R) x : Rsum f [x] = f x.
Proof. cbn. ring. Qed.
Lemma tops_cons k ks : tops (k :: ks) = flat_map (fun x => map (cons x) (tops ks)) (match k with Lhalf => [[1%Z]] | Lone => [[2%Z]] | Lfixed ss => ss end).
Proof. reflexivity. Qed.
Lemma tops_length ks : forall top, In top (tops ks) -> length top = length ks.
Proof.
  induction ks as [|k ks IH]; intros top H; [destruct H as [<-|[]]; reflexivity|].
  rewrite tops_cons in H. apply in_flat_map in H as (x & _ & H). apply in_map_iff in H as (t & <- & H). cbn. rewrite (IH t H). reflexivity.
Qed.
Lemma sum_by_tops ks : forall f : list (list Z) -> R,
  Rsum f (cart (map klist ks)) = Rsum (fun top => Rsum f (spins ks top)) (tops ks).
Proof.
  induction ks as [|k ks IH]; intros f; [cbn; ring|].
  rewrite tops_cons. cbn [map cart]. rewrite !Rsum_flat.
  assert (K : forall x, Rsum (fun t => f (x :: t)) (cart (map klist ks)) = Rsum (fun top => Rsum (fun t => f (x :: t)) (spins ks top)) (tops ks)).
  { intros x. apply (IH (fun t => f (x :: t))). }
  assert (S : forall l x, Rsum (fun top => Rsum f (spins (k :: ks) top)) (map (cons x) l) = Rsum (fun top => Rsum f (spins (k :: ks) (x :: top))) l).
  { intros l x. rewrite Rsum_map. reflexivity. }
  assert (E : forall ys, Rsum (fun x => Rsum f (map (cons x) (cart (map klist ks)))) ys = Rsum (fun top => Rsum f (flat_map (fun x => map (cons x) (spins ks top)) ys)) (tops ks)).
  { induction ys as [|y ys IHy]; cbn [Rsum flat_map]; [rewrite Rsum_zero; reflexivity|].
    rewrite Rsum_map, K, IHy, <- Rsum_plus. apply Rsum_ext. intros t _. rewrite Rsum_app, Rsum_map. reflexivity. }
  destruct k; cbn [klist].
  - rewrite E. cbn [Rsum]. rewrite Rplus_0_r, S. reflexivity.
  - rewrite E. cbn [Rsum]. rewrite Rplus_0_r, S. reflexivity.
  - apply Rsum_ext. intros x _. rewrite S, Rsum_map, K. apply Rsum_ext. intros t _. cbn [spins flat_map].
    rewrite app_nil_r, Rsum_map. reflexivity.
Qed.
