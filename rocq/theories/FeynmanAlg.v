(** * Four fermions: the algebra

    The sum over spins of the square of a tree amplitude does not depend on the spinors
    chosen, and with two-component spinors the diagrams become products of two spinor
    products. *)
From Coq Require Import Reals String Lra Lia.
From Coquelicot Require Import Complex.
From Verif Require Import Base SpinColour Feynman.
Open Scope nat_scope.

Section Complex.
  Open Scope C_scope.
  Lemma conj_plus x y : Cconj (x + y) = Cconj x + Cconj y.
  Proof. destruct x, y; unfold Cconj, Cplus; cbn; f_equal; ring. Qed.
  Lemma conj_mult x y : Cconj (x * y) = Cconj x * Cconj y.
  Proof. destruct x, y; unfold Cconj, Cmult; cbn; f_equal; ring. Qed.
  Lemma conj_opp x : Cconj (- x) = - Cconj x.
  Proof. destruct x; unfold Cconj, Copp; cbn; f_equal; ring. Qed.
  Lemma conj_conj x : Cconj (Cconj x) = x.
  Proof. destruct x; unfold Cconj; cbn; f_equal; ring. Qed.
  Lemma conj_R x : Cconj (RtoC x) = RtoC x.
  Proof. unfold Cconj, RtoC; cbn; f_equal; ring. Qed.
  Lemma mod2 x : RtoC (Cmod x ^ 2) = x * Cconj x.
  Proof.
    destruct x as [a b]. unfold Cmod. rewrite pow2_sqrt by nra.
    unfold RtoC, Cmult, Cconj. cbn. f_equal; ring.
  Qed.
  Lemma RtoC_eq x y : RtoC x = RtoC y -> x = y.
  Proof. intros H. exact (f_equal fst H). Qed.
  Lemma RtoC_rsum {A} (f : A -> R) l : RtoC (rsum f l) = Csum (fun x => RtoC (f x)) l.
  Proof. induction l as [|x l IH]; cbn [rsum Csum]; [reflexivity|]. rewrite RtoC_plus, IH. reflexivity. Qed.
  Lemma Csum_ext {A} (f g : A -> C) l : (forall x, In x l -> f x = g x) -> Csum f l = Csum g l.
  Proof. intros H. induction l as [|x l IH]; [reflexivity|]. cbn [Csum]. rewrite (H x (or_introl eq_refl)), IH; [reflexivity|]. intros y Hy. apply H. right. exact Hy. Qed.
  Lemma Csum_scal {A} k (f : A -> C) l : Csum (fun x => k * f x) l = k * Csum f l.
  Proof. induction l as [|x l IH]; cbn [Csum]; [ring|]. rewrite IH. ring. Qed.
  Lemma Csum_plus {A} (f g : A -> C) l : Csum (fun x => f x + g x) l = Csum f l + Csum g l.
  Proof. induction l as [|x l IH]; cbn [Csum]; [ring|]. rewrite IH. ring. Qed.
  Lemma Csum_app {A} (f : A -> C) l l' : Csum f (l ++ l') = Csum f l + Csum f l'.
  Proof. induction l as [|x l IH]; cbn [Csum app]; [ring|]. rewrite IH. ring. Qed.
  Lemma Csum_map {A B} (f : B -> C) (g : A -> B) l : Csum f (map g l) = Csum (fun x => f (g x)) l.
  Proof. induction l as [|x l IH]; cbn [Csum map]; [reflexivity|]. rewrite IH. reflexivity. Qed.
  Lemma Csum_flat_map {A B} (f : B -> C) (g : A -> list B) l : Csum f (flat_map g l) = Csum (fun x => Csum f (g x)) l.
  Proof. induction l as [|x l IH]; cbn [Csum flat_map]; [reflexivity|]. rewrite Csum_app, IH. reflexivity. Qed.
  Lemma rsum_ext {A} (f g : A -> R) l : (forall x, In x l -> f x = g x) -> rsum f l = rsum g l.
  Proof. intros H. induction l as [|x l IH]; [reflexivity|]. cbn [rsum]. rewrite (H x (or_introl eq_refl)), IH; [reflexivity|]. intros y Hy. apply H. right. exact Hy. Qed.
  Lemma rsum_app {A} (f : A -> R) l l' : (rsum f (l ++ l') = rsum f l + rsum f l')%R.
  Proof. induction l as [|x l IH]; cbn [rsum app]; [ring|]. rewrite IH. ring. Qed.
  Lemma rsum_map {A B} (f : B -> R) (g : A -> B) l : rsum f (map g l) = rsum (fun x => f (g x)) l.
  Proof. induction l as [|x l IH]; cbn [rsum map]; [reflexivity|]. rewrite IH. reflexivity. Qed.
  Lemma rsum_flat_map {A B} (f : B -> R) (g : A -> list B) l : rsum f (flat_map g l) = rsum (fun x => rsum f (g x)) l.
  Proof. induction l as [|x l IH]; cbn [rsum flat_map]; [reflexivity|]. rewrite rsum_app, IH. reflexivity. Qed.
  Lemma rsum_plus {A} (f g : A -> R) l : (rsum (fun x => f x + g x) l = rsum f l + rsum g l)%R.
  Proof. induction l as [|x l IH]; cbn [rsum]; [ring|]. rewrite IH. ring. Qed.
  Lemma rsum_zero {A} (l : list A) : rsum (fun _ => 0%R) l = 0%R.
  Proof. induction l as [|x l IH]; cbn [rsum]; [reflexivity|]. rewrite IH. ring. Qed.
  Lemma rsum_swap {A B} (f : A -> B -> R) l l' : rsum (fun x => rsum (f x) l') l = rsum (fun y => rsum (fun x => f x y) l) l'.
  Proof. induction l as [|x l IH]; cbn [rsum]; [symmetry; apply rsum_zero|]. rewrite IH, rsum_plus. reflexivity. Qed.
  Lemma RtoC_invR x : RtoC (/ x) = / RtoC x.
  Proof.
    unfold Cinv, RtoC. cbn [fst snd]. destruct (Req_dec x 0) as [->|H].
    - rewrite Rinv_0. unfold Rdiv. f_equal; ring.
    - f_equal; field; nra.
  Qed.
  Lemma Cinv_mult_any x y : / (x * y) = / x * / y.
  Proof.
    destruct (Ceq_dec x (RtoC 0)) as [->|Hx]; [|destruct (Ceq_dec y (RtoC 0)) as [->|Hy]].
    3: { field. auto. }
    all: rewrite ?Cmult_0_l, ?Cmult_0_r, <- ?RtoC_invR, ?Rinv_0, ?Cmult_0_l, ?Cmult_0_r; reflexivity.
  Qed.
End Complex.

(** ** Slots of an amplitude: linear in each spinor *)
Section Slots.
  Open Scope C_scope.
  Definition e4 (a : nat) : spin4 := fun b => if Nat.eqb a b then RtoC 1 else RtoC 0.
  Definition upd (w : nat -> spin4) (k : nat) (x : spin4) : nat -> spin4 := fun j => if Nat.eqb j k then x else w j.
  Definition linear_in (F : (nat -> spin4) -> C) (k : nat) : Prop :=
    forall w x, F (upd w k x) = sum4 (fun a => x a * F (upd w k (e4 a))).
  Definition gram (l : list spin4) (a b : nat) : C := Csum (fun w => w a * Cconj (w b)) l.
  Lemma conj_sum4 f : Cconj (sum4 f) = sum4 (fun a => Cconj (f a)).
  Proof. unfold sum4. rewrite !conj_plus. reflexivity. Qed.
  Lemma gram_value F k w l : linear_in F k ->
    RtoC (rsum (fun x => (Cmod (F (upd w k x)) ^ 2)%R) l) =
    sum4 (fun a => sum4 (fun b => gram l a b * (F (upd w k (e4 a)) * Cconj (F (upd w k (e4 b)))))).
  Proof.
    intros HF. induction l as [|x l IH].
    - unfold gram, sum4. cbn [rsum Csum]. ring.
    - cbn [rsum]. rewrite RtoC_plus, IH, mod2, (HF w x). unfold gram. cbn [Csum]. rewrite conj_sum4. unfold sum4. rewrite !conj_mult. ring.
  Qed.
  Lemma gram_sum F k w l l' : linear_in F k -> (forall a b, (a < 4)%nat -> (b < 4)%nat -> gram l a b = gram l' a b) ->
    rsum (fun x => (Cmod (F (upd w k x)) ^ 2)%R) l = rsum (fun x => (Cmod (F (upd w k x)) ^ 2)%R) l'.
  Proof.
    intros HF HG. apply RtoC_eq. rewrite !(gram_value F k w _ HF). unfold sum4. rewrite !(HG _ _) by lia. reflexivity.
  Qed.
  Lemma linear_plus F G k : linear_in F k -> linear_in G k -> linear_in (fun w => F w + G w) k.
  Proof. intros HF HG w x. cbv beta. rewrite (HF w x), (HG w x). unfold sum4. ring. Qed.
  Lemma linear_scal c F k : linear_in F k -> linear_in (fun w => c * F w) k.
  Proof. intros HF w x. cbv beta. rewrite (HF w x). unfold sum4. ring. Qed.
  Lemma linear_Csum {A} (F : A -> (nat -> spin4) -> C) l k : (forall x, In x l -> linear_in (F x) k) -> linear_in (fun w => Csum (fun x => F x w) l) k.
  Proof.
    intros H. induction l as [|y l IH]; [intros w x; cbn [Csum]; unfold sum4; ring|]. cbn [Csum].
    apply linear_plus; [apply H; left; reflexivity|apply IH; intros z Hz; apply H; right; exact Hz].
  Qed.
  Lemma linear_add F k w x y : linear_in F k -> F (upd w k (fun a => x a + y a)) = F (upd w k x) + F (upd w k y).
  Proof. intros HF. rewrite (HF w (fun a => x a + y a)), (HF w x), (HF w y). unfold sum4. ring. Qed.
  Lemma current_row g x c mu : current g x c mu = sum4 (fun a => x a * current g (e4 a) c mu).
  Proof. unfold current, sum4, e4. cbn [Nat.eqb]. ring. Qed.
  Lemma current_col g r x mu : current g r x mu = sum4 (fun a => x a * current g r (e4 a) mu).
  Proof. unfold current, sum4, e4. cbn [Nat.eqb]. ring. Qed.
  Lemma bilinear_row x c : bilinear x c = sum4 (fun a => x a * bilinear (e4 a) c).
  Proof. unfold bilinear, sum4, e4. cbn [Nat.eqb]. ring. Qed.
  Lemma bilinear_col r x : bilinear r x = sum4 (fun a => x a * bilinear r (e4 a)).
  Proof. unfold bilinear, sum4, e4. cbn [Nat.eqb]. ring. Qed.

  Definition ends (d : diagram) : list nat := [d_r d; d_c d; d_r' d; d_c' d].
  Definition once (d : diagram) (k : nat) : bool := Nat.eqb (length (filter (Nat.eqb k) (ends d))) 1.
  Definition numerator P p q (d : diagram) (w : nat -> spin4) : C :=
    let k := transfer q (d_r d) (d_c d) in
    let f := flavour_of p (d_c d) in let f' := flavour_of p (d_c' d) in
    match d_boson d with
    | Bh => Cmult (RtoC (- (yukawa P f * yukawa P f'))) (Cmult (bilinear (w (d_r d)) (w (d_c d))) (bilinear (w (d_r' d)) (w (d_c' d))))
    | b => let J := current (v_coupling P b f) (w (d_r d)) (w (d_c d)) in
           let J' := current (v_coupling P b f') (w (d_r' d)) (w (d_c' d)) in
           let kC := fun mu => RtoC (k mu) in
           match b with
           | BA | Bg => dotJ J J'
           | _ => Cminus (dotJ J J') (Cdiv (Cmult (dotJ kC J) (dotJ kC J')) (RtoC (b_mass P b * b_mass P b)))
           end
    end.
  Lemma diagram_numerator P p q d w :
    diagram_value P p q d w = RtoC (d_sign d) / propagator_den P (d_boson d) (transfer q (d_r d) (d_c d)) * numerator P p q d w.
  Proof. unfold diagram_value. change (RtoC (d_sign d) * (numerator P p q d w / propagator_den P (d_boson d) (transfer q (d_r d) (d_c d))) = RtoC (d_sign d) / propagator_den P (d_boson d) (transfer q (d_r d) (d_c d)) * numerator P p q d w). unfold Cdiv. ring. Qed.
  Lemma numerator_linear P p q d k : once d k = true -> linear_in (numerator P p q d) k.
  Proof.
    intros HO w x. unfold once, ends in HO. cbn [filter] in HO. unfold numerator, upd.
    rewrite (Nat.eqb_sym (d_r d) k), (Nat.eqb_sym (d_c d) k), (Nat.eqb_sym (d_r' d) k), (Nat.eqb_sym (d_c' d) k).
    destruct (Nat.eqb k (d_r d)), (Nat.eqb k (d_c d)), (Nat.eqb k (d_r' d)), (Nat.eqb k (d_c' d)); try discriminate HO; clear HO;
    destruct (d_boson d); cbv zeta; unfold dotJ, sum4.
    all: first [ rewrite (bilinear_row x) | rewrite (bilinear_col _ x) | rewrite !(current_row _ x) | rewrite !(current_col _ _ x) ];
      unfold sum4, Cdiv; ring.
  Qed.
  Lemma diagram_linear P p q d k : once d k = true -> linear_in (diagram_value P p q d) k.
  Proof.
    intros HO w x. rewrite diagram_numerator, (numerator_linear P p q d k HO w x). unfold sum4. rewrite !diagram_numerator. ring.
  Qed.
End Slots.

(** ** Two-component spinors *)
Record ends2 : Type := E2 { a0 : C; a1 : C; s0 : C; s1 : C }.      (* |i>, [i| *)
Section TwoComponent.
  Open Scope C_scope.
  Definition angle2 (i j : ends2) : C := a1 i * a0 j - a0 i * a1 j.
  Definition square2 (i j : ends2) : C := s0 i * s1 j - s1 i * s0 j.
  (** the sign of outgoing and incoming legs *)
  Definition kap (k : nat) : R := if goes_out k then 1%R else (-1)%R.
  Lemma kap_sq k : RtoC (kap k) * RtoC (kap k) = RtoC 1.
  Proof. rewrite <- RtoC_mult. f_equal. unfold kap. destruct (goes_out k); ring. Qed.
  Definition colw (k : R) (l : ends2) : spin4 :=
    fun a => match a with 0%nat => RtoC k * s1 l | 1%nat => - (RtoC k * s0 l) | 2%nat => a0 l | 3%nat => a1 l | _ => RtoC 0 end.
  Definition roww (k : R) (l : ends2) : spin4 :=
    fun a => match a with 0%nat => s0 l | 1%nat => s1 l | 2%nat => RtoC k * a1 l | 3%nat => - (RtoC k * a0 l) | _ => RtoC 0 end.
  Ltac comps := unfold dotJ, current, bilinear, sum4, slash, gamma, pauli, metric, chir, colw, roww, angle2, square2; cbn [fst snd].
  Lemma bilinear_two ki kj i j : bilinear (roww ki i) (colw kj j) = RtoC kj * square2 i j + RtoC ki * angle2 i j.
  Proof. comps. ring. Qed.
  (** Fierz *)
  Lemma dot_two g g' ki kj kk kl i j k l :
    dotJ (current g (roww ki i) (colw kj j)) (current g' (roww kk k) (colw kl l)) =
    RtoC 2 * (RtoC (ki * kj * kk * kl * (fst g * fst g')) * (angle2 i k * square2 l j)
            + RtoC (snd g * snd g') * (square2 i k * angle2 l j)
            + RtoC (ki * kj * (fst g * snd g')) * (angle2 i l * square2 k j)
            + RtoC (kk * kl * (snd g * fst g')) * (square2 i l * angle2 k j)).
  Proof.
    comps. rewrite !RtoC_mult. assert (I2 : Ci * Ci = - RtoC 1) by (unfold Ci, Cmult, Copp, RtoC; cbn; f_equal; ring).
    destruct i, j, k, l; cbn [a0 a1 s0 s1]. generalize (RtoC ki) (RtoC kj) (RtoC kk) (RtoC kl) (RtoC (fst g)) (RtoC (snd g)) (RtoC (fst g')) (RtoC (snd g')). intros.
    replace (RtoC 2) with (RtoC 1 + RtoC 1) by (rewrite <- RtoC_plus; f_equal; ring). ring [I2].
  Qed.
  (** p |i] = m |i>, <i| p = m [i| *)
  Definition dirac2 (m : R) (p : nat -> R) (l : ends2) : Prop :=
    let p00 := RtoC (p 0%nat + p 3%nat) in let p11 := RtoC (p 0%nat - p 3%nat) in
    let p01 := (p 1%nat, - p 2%nat)%R in let p10 := (p 1%nat, p 2%nat) in
    p00 * s1 l - p01 * s0 l = - (RtoC m * a0 l) /\ p10 * s1 l - p11 * s0 l = - (RtoC m * a1 l) /\
    a1 l * p00 - a0 l * p10 = RtoC m * s0 l /\ a1 l * p01 - a0 l * p11 = RtoC m * s1 l.
  Definition chirals (g : R * R) (r c : spin4) : C := sum4 (fun a => r a * chir g a * c a).
  Lemma off_diagonal p : (p 1%nat, - p 2%nat)%R = RtoC (p 1%nat) - Ci * RtoC (p 2%nat) /\ (p 1%nat, p 2%nat)%R = RtoC (p 1%nat) + Ci * RtoC (p 2%nat).
  Proof. unfold Ci, Cminus, Cplus, Cmult, Copp, RtoC; cbn; split; f_equal; ring. Qed.
  Lemma row_dirac m p k i g c : (k * k = 1)%R -> dirac2 m p i ->
    dotJ (fun mu => RtoC (- k * p mu)) (current g (roww k i) c) = - RtoC m * chirals g (roww k i) c.
  Proof.
    intros Hk (D1 & D2 & D3 & D4). assert (HkC : RtoC k * RtoC k = RtoC 1) by (rewrite <- RtoC_mult, Hk; reflexivity).
    destruct (off_diagonal p) as [E01 E10]. unfold chirals.
    transitivity (- (RtoC k * RtoC k) * RtoC (fst g) * (c 0%nat * (a1 i * RtoC (p 0%nat + p 3%nat) - a0 i * (p 1%nat, p 2%nat)) + c 1%nat * (a1 i * (p 1%nat, - p 2%nat)%R - a0 i * RtoC (p 0%nat - p 3%nat)))
      - RtoC k * RtoC (snd g) * (c 3%nat * (RtoC (p 0%nat + p 3%nat) * s1 i - (p 1%nat, - p 2%nat)%R * s0 i) - c 2%nat * ((p 1%nat, p 2%nat) * s1 i - RtoC (p 0%nat - p 3%nat) * s0 i))).
    - rewrite E01, E10, !RtoC_plus, !RtoC_minus. comps. rewrite !RtoC_mult, !RtoC_opp. ring.
    - rewrite D1, D2, D3, D4, HkC. comps. ring.
  Qed.
  Lemma col_dirac m p k j g r : (k * k = 1)%R -> dirac2 m p j ->
    dotJ (fun mu => RtoC (- k * p mu)) (current g r (colw k j)) = RtoC m * chirals (snd g, fst g) r (colw k j).
  Proof.
    intros Hk (D1 & D2 & D3 & D4). assert (HkC : RtoC k * RtoC k = RtoC 1) by (rewrite <- RtoC_mult, Hk; reflexivity).
    destruct (off_diagonal p) as [E01 E10]. unfold chirals.
    transitivity (- (RtoC k * RtoC k) * RtoC (fst g) * (r 2%nat * (RtoC (p 0%nat + p 3%nat) * s1 j - (p 1%nat, - p 2%nat)%R * s0 j) + r 3%nat * ((p 1%nat, p 2%nat) * s1 j - RtoC (p 0%nat - p 3%nat) * s0 j))
      - RtoC k * RtoC (snd g) * (r 1%nat * (a1 j * RtoC (p 0%nat + p 3%nat) - a0 j * (p 1%nat, p 2%nat)) - r 0%nat * (a1 j * (p 1%nat, - p 2%nat)%R - a0 j * RtoC (p 0%nat - p 3%nat)))).
    - rewrite E01, E10, !RtoC_plus, !RtoC_minus. comps. rewrite !RtoC_mult, !RtoC_opp. ring.
    - rewrite D1, D2, D3, D4, HkC. comps. ring.
  Qed.
  Lemma chirals_two g ki kj i j : chirals g (roww ki i) (colw kj j) = RtoC (fst g * kj) * square2 i j + RtoC (snd g * ki) * angle2 i j.
  Proof. unfold chirals. comps. rewrite !RtoC_mult. ring. Qed.
  Lemma dotJ_plus k k' J : dotJ (fun mu => RtoC (k mu + k' mu)) J = dotJ (fun mu => RtoC (k mu)) J + dotJ (fun mu => RtoC (k' mu)) J.
  Proof. unfold dotJ, sum4. rewrite !RtoC_plus. ring. Qed.
End TwoComponent.

(** ** A diagram as a sum of products of two spinor products *)
Record leaf2 : Type := Lf { f_angle : bool; f_L : nat; f_R : nat }.
Definition pair2 : Type := (leaf2 * leaf2)%type.
Section Terms.
  Open Scope C_scope.
  Variable P : standard_model.
  Variable p : process.
  Definition lval (E : nat -> ends2) (f : leaf2) : C := if f_angle f then angle2 (E (f_L f)) (E (f_R f)) else square2 (E (f_L f)) (E (f_R f)).
  Definition pval (E : nat -> ends2) (m : pair2) : C := lval E (fst m) * lval E (snd m).
  Definition leg_mass2 (k : nat) : R := sm_mass P (flavour_of p k).
  Definition AA := Lf true.
  Definition SS := Lf false.
  (** k.J on the ends of a line *)
  Definition longS (g : R * R) (i j : nat) : R := ((leg_mass2 j * snd g - leg_mass2 i * fst g) * kap j)%R.
  Definition longA (g : R * R) (i j : nat) : R := ((leg_mass2 j * fst g - leg_mass2 i * snd g) * kap i)%R.
  Definition vector_terms (g g' : R * R) (i j k l : nat) : list (R * pair2) :=
    [ (2 * (kap i * kap j * kap k * kap l * (fst g * fst g')), (AA i k, SS l j));
      (2 * (snd g * snd g'), (SS i k, AA l j));
      (2 * (kap i * kap j * (fst g * snd g')), (AA i l, SS k j));
      (2 * (kap k * kap l * (snd g * fst g')), (SS i l, AA k j)) ]%R.
  Definition long_terms (M2 : R) (g g' : R * R) (i j k l : nat) : list (R * pair2) :=
    [ (longS g i j * longS g' k l / M2, (SS i j, SS k l)); (longS g i j * longA g' k l / M2, (SS i j, AA k l));
      (longA g i j * longS g' k l / M2, (AA i j, SS k l)); (longA g i j * longA g' k l / M2, (AA i j, AA k l)) ]%R.
  Definition scalar_terms (y : R) (i j k l : nat) : list (R * pair2) :=
    [ (y * (kap j * kap l), (SS i j, SS k l)); (y * (kap j * kap k), (SS i j, AA k l));
      (y * (kap i * kap l), (AA i j, SS k l)); (y * (kap i * kap k), (AA i j, AA k l)) ]%R.
  Definition dterms (d : diagram) : list (R * pair2) :=
    let i := d_r d in let j := d_c d in let k := d_r' d in let l := d_c' d in
    let f := flavour_of p j in let f' := flavour_of p l in
    match d_boson d with
    | Bh => scalar_terms (- (yukawa P f * yukawa P f')) i j k l
    | b => let g := v_coupling P b f in let g' := v_coupling P b f' in
           vector_terms g g' i j k l ++ match b with BA | Bg => [] | _ => long_terms (b_mass P b * b_mass P b) g g' i j k l end
    end.
  Definition tsum (E : nat -> ends2) (l : list (R * pair2)) : C := Csum (fun t => RtoC (fst t) * pval E (snd t)) l.
  Definition canon (E : nat -> ends2) (k : nat) : spin4 := if is_column p k then colw (kap k) (E k) else roww (kap k) (E k).
  Definition well_formed (d : diagram) : bool :=
    negb (is_column p (d_r d)) && is_column p (d_c d) && negb (is_column p (d_r' d)) && is_column p (d_c' d) &&
    forallb (once d) [0; 1; 2; 3]%nat.
  Lemma kap_one k : (kap k * kap k = 1)%R.
  Proof. unfold kap. destruct (goes_out k); ring. Qed.
  Lemma ends_sum (d : diagram) (f : nat -> R) : forallb (once d) [0; 1; 2; 3]%nat = true ->
    (f (d_r d) + f (d_c d) + (f (d_r' d) + f (d_c' d)) = f 0%nat + f 1%nat + f 2%nat + f 3%nat)%R.
  Proof.
    destruct d as [b i j k l s]. unfold once, ends. cbn [d_r d_c d_r' d_c' forallb]. intros H.
    destruct i as [|[|[|[|i]]]]; destruct j as [|[|[|[|j]]]]; try discriminate H; destruct k as [|[|[|[|k]]]]; try discriminate H;
    destruct l as [|[|[|[|l]]]]; try discriminate H; ring.
  Qed.
  Variable q : nat -> nat -> R.
  Variable E : nat -> ends2.
  Hypothesis HC : forall mu, (ingoing q 0 mu + ingoing q 1 mu + ingoing q 2 mu + ingoing q 3 mu = 0)%R.
  Lemma numerator_terms d (w : nat -> spin4) : well_formed d = true ->
    (forall k, In k (ends d) -> w k = canon E k) -> (forall k, In k (ends d) -> dirac2 (leg_mass2 k) (q k) (E k)) ->
    numerator P p q d w = tsum E (dterms d).
  Proof.
    intros HW Hw HD. unfold well_formed in HW.
    apply andb_prop in HW as [HW HO]. apply andb_prop in HW as [HW C4]. apply andb_prop in HW as [HW C3]. apply andb_prop in HW as [C1 C2].
    apply negb_true_iff in C1, C3.
    assert (W1 : w (d_r d) = roww (kap (d_r d)) (E (d_r d))) by (rewrite Hw by (cbn; tauto); unfold canon; rewrite C1; reflexivity).
    assert (W2 : w (d_c d) = colw (kap (d_c d)) (E (d_c d))) by (rewrite Hw by (cbn; tauto); unfold canon; rewrite C2; reflexivity).
    assert (W3 : w (d_r' d) = roww (kap (d_r' d)) (E (d_r' d))) by (rewrite Hw by (cbn; tauto); unfold canon; rewrite C3; reflexivity).
    assert (W4 : w (d_c' d) = colw (kap (d_c' d)) (E (d_c' d))) by (rewrite Hw by (cbn; tauto); unfold canon; rewrite C4; reflexivity).
    unfold numerator, dterms. rewrite W1, W2, W3, W4.
    pose proof (HD (d_r d) ltac:(cbn; tauto)) as D1. pose proof (HD (d_c d) ltac:(cbn; tauto)) as D2.
    pose proof (HD (d_r' d) ltac:(cbn; tauto)) as D3. pose proof (HD (d_c' d) ltac:(cbn; tauto)) as D4.
    set (i := d_r d) in *. set (j := d_c d) in *. set (k := d_r' d) in *. set (l := d_c' d) in *.
    assert (ING : forall n mu, ingoing q n mu = (- kap n * q n mu)%R) by (intros n mu; unfold ingoing, kap; destruct (goes_out n); ring).
    assert (KJ : forall g, dotJ (fun mu => RtoC (transfer q i j mu)) (current g (roww (kap i) (E i)) (colw (kap j) (E j))) =
      RtoC (longS g i j) * square2 (E i) (E j) + RtoC (longA g i j) * angle2 (E i) (E j)).
    { intros g. unfold transfer. rewrite dotJ_plus.
      replace (dotJ (fun mu => RtoC (ingoing q i mu)) (current g (roww (kap i) (E i)) (colw (kap j) (E j))))
        with (dotJ (fun mu => RtoC (- kap i * q i mu)) (current g (roww (kap i) (E i)) (colw (kap j) (E j)))) by (unfold dotJ, sum4; rewrite !ING; reflexivity).
      replace (dotJ (fun mu => RtoC (ingoing q j mu)) (current g (roww (kap i) (E i)) (colw (kap j) (E j))))
        with (dotJ (fun mu => RtoC (- kap j * q j mu)) (current g (roww (kap i) (E i)) (colw (kap j) (E j)))) by (unfold dotJ, sum4; rewrite !ING; reflexivity).
      rewrite (row_dirac _ _ _ _ _ _ (kap_one i) D1), (col_dirac _ _ _ _ _ _ (kap_one j) D2), !chirals_two. unfold longS, longA. cbn [fst snd].
      rewrite !RtoC_mult, !RtoC_minus, !RtoC_mult. ring. }
    assert (KJ' : forall g, dotJ (fun mu => RtoC (transfer q i j mu)) (current g (roww (kap k) (E k)) (colw (kap l) (E l))) =
      - (RtoC (longS g k l) * square2 (E k) (E l) + RtoC (longA g k l) * angle2 (E k) (E l))).
    { intros g.
      assert (T : forall mu, transfer q i j mu = (- (ingoing q k mu + ingoing q l mu))%R).
      { intros mu. pose proof (ends_sum d (fun n => ingoing q n mu) HO) as X. cbv beta in X. rewrite HC in X. unfold transfer. fold i j k l in X. lra. }
      transitivity (- dotJ (fun mu => RtoC (transfer q k l mu)) (current g (roww (kap k) (E k)) (colw (kap l) (E l)))).
      { unfold dotJ, sum4. rewrite !T. unfold transfer. rewrite !RtoC_opp. ring. }
      unfold transfer. rewrite dotJ_plus.
      replace (dotJ (fun mu => RtoC (ingoing q k mu)) (current g (roww (kap k) (E k)) (colw (kap l) (E l))))
        with (dotJ (fun mu => RtoC (- kap k * q k mu)) (current g (roww (kap k) (E k)) (colw (kap l) (E l)))) by (unfold dotJ, sum4; rewrite !ING; reflexivity).
      replace (dotJ (fun mu => RtoC (ingoing q l mu)) (current g (roww (kap k) (E k)) (colw (kap l) (E l))))
        with (dotJ (fun mu => RtoC (- kap l * q l mu)) (current g (roww (kap k) (E k)) (colw (kap l) (E l)))) by (unfold dotJ, sum4; rewrite !ING; reflexivity).
      rewrite (row_dirac _ _ _ _ _ _ (kap_one k) D3), (col_dirac _ _ _ _ _ _ (kap_one l) D4), !chirals_two. unfold longS, longA. cbn [fst snd].
      rewrite !RtoC_mult, !RtoC_minus, !RtoC_mult. ring. }
    cbv zeta. destruct (d_boson d).
    1, 5: rewrite dot_two, app_nil_r; unfold vector_terms, tsum, pval, lval, AA, SS; cbn [Csum fst snd f_angle f_L f_R]; rewrite !RtoC_mult; ring.
    1, 2: rewrite KJ, KJ', dot_two; unfold vector_terms, long_terms, tsum, pval, lval, AA, SS; cbn [app Csum fst snd f_angle f_L f_R];
      unfold Rdiv; rewrite !RtoC_mult, !RtoC_invR, !RtoC_mult; unfold Cdiv; ring.
    rewrite !bilinear_two. unfold scalar_terms, tsum, pval, lval, AA, SS. cbn [Csum fst snd f_angle f_L f_R]. rewrite !RtoC_mult. ring.
  Qed.
End Terms.

(** ** Complete families of two-component spinors *)
Section Families.
  Open Scope C_scope.
  Definition P2 (p : nat -> R) (i j : bool) : C :=
    match i, j with
    | false, false => RtoC (p 0%nat + p 3%nat) | false, true => (p 1%nat, - p 2%nat)%R
    | true, false => (p 1%nat, p 2%nat) | true, true => RtoC (p 0%nat - p 3%nat)
    end.
  Definition ac (i : bool) (e : ends2) : C := if i then a1 e else a0 e.
  Definition sc (i : bool) (e : ends2) : C := if i then s1 e else s0 e.
  Definition outer2 (p : nat -> R) (es : list ends2) : Prop :=
    forall i j, Csum (fun e => ac i e * Cconj (ac j e)) es = P2 p i j /\ Csum (fun e => sc i e * Cconj (sc j e)) es = P2 p j i.
  Definition cross2 (m : R) (es : list ends2) : Prop :=
    forall i j, Csum (fun e => ac i e * Cconj (sc j e)) es = if Bool.eqb i j then RtoC 0 else if i then RtoC m else - RtoC m.
  Definition sw (a : nat) : nat := match a with 0 => 2 | 1 => 3 | 2 => 0 | 3 => 1 | _ => a end%nat.
  Definition mcomp (G : nat -> nat -> C) (col : bool) (a b : nat) : C := if col then G a (sw b) else G (sw b) a.
  Definition dirac_matrix (p : nat -> R) (M : R) (a b : nat) : C := slash (fun mu => RtoC (p mu)) a b + RtoC M * one4 a b.
  Lemma bar_at u b : (b < 4)%nat -> bar u b = Cconj (u (sw b)).
  Proof.
    intros H. destruct b as [|[|[|[|b]]]]; [..|lia]; unfold bar, sum4, gamma, pauli, metric; cbn [sw]; ring.
  Qed.
  Lemma sw_sw a : sw (sw a) = a.
  Proof. destruct a as [|[|[|[|a]]]]; reflexivity. Qed.
  Lemma sw_lt a : (a < 4)%nat -> (sw a < 4)%nat.
  Proof. intros H. destruct a as [|[|[|[|a]]]]; cbn; lia. Qed.
  Lemma given_gram (col : bool) p M (chi : bool -> spin4) :
    (forall a b, (a < 4)%nat -> (b < 4)%nat -> chi false a * bar (chi false) b + chi true a * bar (chi true) b = dirac_matrix p M a b) ->
    forall a b, (a < 4)%nat -> (b < 4)%nat ->
      gram (map (fun s => if col then chi s else bar (chi s)) [false; true]) a b = mcomp (dirac_matrix p M) col a b.
  Proof.
    intros H a b Ha Hb. unfold gram, mcomp. cbn [map Csum]. destruct col.
    - rewrite <- (H a (sw b) Ha (sw_lt b Hb)), !(bar_at _ (sw b)) by (apply sw_lt; exact Hb). rewrite sw_sw. ring.
    - rewrite <- (H (sw b) a (sw_lt b Hb) Ha), !(bar_at _ a), !(bar_at _ b) by assumption. rewrite !conj_conj. ring.
  Qed.
  Definition wco (col : bool) (k : R) (a : nat) : R :=
    match col, a with true, 0%nat => k | true, 1%nat => - k | false, 2%nat => k | false, 3%nat => - k | _, _ => 1 end%R.
  Definition wfn (col : bool) (a : nat) : ends2 -> C :=
    match col, a with
    | true, 0%nat => sc true | true, 1%nat => sc false | true, 2%nat => ac false | true, _ => ac true
    | false, 0%nat => sc false | false, 1%nat => sc true | false, 2%nat => ac true | false, _ => ac false
    end.
  Lemma wave_comp (col : bool) k e a : (a < 4)%nat -> (if col then colw k e else roww k e) a = RtoC (wco col k a) * wfn col a e.
  Proof. intros H. destruct col, a as [|[|[|[|a]]]]; try lia; cbn [colw roww wco wfn sc ac]; rewrite ?RtoC_opp; ring. Qed.
  Lemma canon_gram (col : bool) p m k es : (k * k = 1)%R -> outer2 p es -> cross2 m es ->
    forall a b, (a < 4)%nat -> (b < 4)%nat ->
      gram (map (fun x => if col then colw k x else roww k x) es) a b = mcomp (dirac_matrix p (if col then - k * m else k * m)%R) col a b.
  Proof.
    intros Hk HO HX a b Ha Hb. assert (HkC : RtoC k * RtoC k = RtoC 1) by (rewrite <- RtoC_mult, Hk; reflexivity).
    destruct (off_diagonal p) as [E01 E10].
    assert (X' : forall i j, Csum (fun e => sc j e * Cconj (ac i e)) es = if Bool.eqb i j then RtoC 0 else if i then RtoC m else - RtoC m).
    { intros i j. transitivity (Cconj (Csum (fun e => ac i e * Cconj (sc j e)) es)).
      - clear. induction es as [|e l IH]; cbn [Csum]; [rewrite conj_R; reflexivity|]. rewrite IH, conj_plus, conj_mult, conj_conj. ring.
      - rewrite (HX i j). destruct i, j; cbn [Bool.eqb]; rewrite ?conj_opp, ?conj_R; reflexivity. }
    unfold gram. rewrite Csum_map.
    rewrite (Csum_ext _ (fun e => RtoC (wco col k a * wco col k b) * (wfn col a e * Cconj (wfn col b e)))).
    2: { intros e _. rewrite !wave_comp by assumption. rewrite conj_mult, conj_R, RtoC_mult. ring. }
    rewrite Csum_scal.
    assert (HV : Csum (fun e => wfn col a e * Cconj (wfn col b e)) es =
      match col, a, b with
      | true, 0, 0 => P2 p true true | true, 0, 1 => P2 p false true | true, 1, 0 => P2 p true false | true, 1, 1 => P2 p false false
      | true, 2, 2 => P2 p false false | true, 2, 3 => P2 p false true | true, 3, 2 => P2 p true false | true, 3, 3 => P2 p true true
      | true, 0, 2 => - RtoC m | true, 1, 3 => RtoC m | true, 2, 0 => - RtoC m | true, 3, 1 => RtoC m
      | false, 0, 0 => P2 p false false | false, 0, 1 => P2 p true false | false, 1, 0 => P2 p false true | false, 1, 1 => P2 p true true
      | false, 2, 2 => P2 p true true | false, 2, 3 => P2 p true false | false, 3, 2 => P2 p false true | false, 3, 3 => P2 p false false
      | false, 0, 2 => RtoC m | false, 1, 3 => - RtoC m | false, 2, 0 => RtoC m | false, 3, 1 => - RtoC m
      | _, _, _ => RtoC 0 end%nat).
    { destruct col; (destruct a as [|[|[|[|a]]]]; [..|lia]; destruct b as [|[|[|[|b]]]]; [..|lia| | | | |lia| | | | |lia| | | | |lia]); cbn [wfn];
      first [exact (proj1 (HO _ _)) | exact (proj2 (HO _ _)) | exact (HX _ _) | exact (X' _ _)]. }
    rewrite HV. clear HV X' HX HO. unfold mcomp, dirac_matrix, slash, sum4, one4.
    destruct col; (destruct a as [|[|[|[|a]]]]; [..|lia]; destruct b as [|[|[|[|b]]]]; [..|lia| | | | |lia| | | | |lia| | | | |lia]);
    cbn [sw Nat.eqb gamma pauli metric wco P2]; rewrite ?E01, ?E10, ?RtoC_plus, ?RtoC_minus, ?RtoC_mult, ?RtoC_opp, ?RtoC_mult; ring [HkC].
  Qed.
  (** without mass: the two chiralities *)
  Definition keep (lo : bool) (w : spin4) : spin4 := fun a => if Bool.eqb lo (a <? 2)%nat then w a else RtoC 0.
  Lemma keep_both w a : keep true w a + keep false w a = w a.
  Proof. unfold keep. destruct (a <? 2)%nat; cbn [Bool.eqb]; ring. Qed.
  Lemma chiral_gram (col : bool) p k e : (k * k = 1)%R -> outer2 p [e] ->
    forall a b, (a < 4)%nat -> (b < 4)%nat ->
      gram (map (fun c => keep c (if col then colw k e else roww k e)) [true; false]) a b = mcomp (dirac_matrix p 0) col a b.
  Proof.
    intros Hk HO a b Ha Hb. assert (HkC : RtoC k * RtoC k = RtoC 1) by (rewrite <- RtoC_mult, Hk; reflexivity).
    destruct (off_diagonal p) as [E01 E10].
    unfold gram. cbn [map Csum].
    assert (HV : forall i j, ac i e * Cconj (ac j e) = P2 p i j /\ sc i e * Cconj (sc j e) = P2 p j i).
    { intros i j. destruct (HO i j) as [A B]. cbn [Csum] in A, B. rewrite <- A, <- B. split; ring. }
    transitivity (if Bool.eqb (a <? 2)%nat (b <? 2)%nat then RtoC (wco col k a * wco col k b) * (wfn col a e * Cconj (wfn col b e)) else RtoC 0).
    { unfold keep. destruct (a <? 2)%nat, (b <? 2)%nat; cbn [Bool.eqb]; rewrite ?conj_R, ?wave_comp by assumption; rewrite ?conj_mult, ?conj_R, ?RtoC_mult; ring. }
    unfold mcomp, dirac_matrix, slash, sum4, one4.
    destruct col; (destruct a as [|[|[|[|a]]]]; [..|lia]; destruct b as [|[|[|[|b]]]]; [..|lia| | | | |lia| | | | |lia| | | | |lia]);
    cbn [sw Nat.eqb Nat.ltb Nat.leb Bool.eqb gamma pauli metric wco wfn];
    rewrite ?(proj1 (HV _ _)), ?(proj2 (HV _ _)); cbn [P2];
    rewrite ?E01, ?E10, ?RtoC_plus, ?RtoC_minus, ?RtoC_mult, ?RtoC_opp, ?RtoC_mult; ring [HkC].
  Qed.
End Families.
