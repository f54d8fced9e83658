(** * Outer bosons: the kinematical variables

    Used in proofs only.  The variables of [BosonCode.kin_of] have the values they stand for,
    and satisfy its rules. *)
From Coq Require Import Reals List Bool Lra Lia.
From Coquelicot Require Import Complex.
From Verif Require Import Base Feynman BosonSpec Tower BosonCode.
Import ListNotations.
Close Scope nat_scope.
Open Scope R_scope.

(** which masses must agree or vanish *)
Definition kid_fits (i : kid) (t : nat -> mtag) : bool :=
  let e a b := mtag_eqb (t a) (t b) in let z a := mtag_eqb (t a) M0 in
  match i with
  | Ka => e 0%nat 1%nat && e 2%nat 3%nat | Kb => e 0%nat 2%nat && e 1%nat 3%nat | Kc => e 0%nat 3%nat && e 1%nat 2%nat
  | Kd => e 0%nat 1%nat && e 0%nat 2%nat && e 0%nat 3%nat | Ke => e 0%nat 1%nat | Kf => e 2%nat 3%nat | Kg => true
  | Ka00b => z 1%nat && z 2%nat | K0a0b => z 0%nat && z 2%nat | K0aba => z 0%nat && e 1%nat 3%nat | K0aab => z 0%nat && e 1%nat 2%nat
  | Ka0ab => z 1%nat && e 0%nat 2%nat | Kabac => e 0%nat 2%nat | Kabbc => e 1%nat 2%nat
  end.

Section Kin.
  Variables X Y : nat -> R.
  Hypothesis HX : forall k, 0 < X k.
  Hypothesis HY : forall k, 0 <= Y k.
  Hypothesis HYX : forall k, Y k <= X k.
  Variable W : R.
  (** E + p of a leg and E - p of its partner add up to the energy *)
  Hypothesis H01 : X 0 * X 0 + Y 1 * Y 1 = W.
  Hypothesis H10 : X 1 * X 1 + Y 0 * Y 0 = W.
  Hypothesis H23 : X 2 * X 2 + Y 3 * Y 3 = W.
  Hypothesis H32 : X 3 * X 3 + Y 2 * Y 2 = W.
  Variable t : nat -> mtag.
  Hypothesis HT : forall a b, mtag_eqb (t a) (t b) = true -> X a * Y a = X b * Y b.
  Hypothesis H0 : forall a, mtag_eqb (t a) M0 = true -> Y a = 0.
  Definition qv (x : qty) : R := match x with QX k => X k | QY k => Y k | QXX k j => X k / X j | QYX k j => Y k / X j | QNone => 0 end.
  Variable rho : lv -> C.
  Notation ev := (weval rho).

  Lemma sq_inj a b : 0 <= a -> 0 <= b -> a * a = b * b -> a = b.
  Proof. intros A B E. apply Rsqr_inj; assumption. Qed.
  (** two legs with the same mass and x^2 + y'^2 = x'^2 + y^2 *)
  Lemma twins x y x' y' : 0 < x -> 0 < x' -> 0 <= y -> 0 <= y' -> x * x + y' * y' = x' * x' + y * y -> x * y = x' * y' -> x = x' /\ y = y'.
  Proof.
    intros A B C D E F.
    assert (K : (x * x - x' * x') * (x * x + y' * y') = 0).
    { transitivity (x * x * (x * x + y' * y') - x' * x' * (x * x) - (x' * y') * (x' * y')); [ring|]. rewrite <- F, E. ring. }
    apply Rmult_integral in K as [K|K]; [|nra].
    assert (x = x') by (apply sq_inj; lra). subst x'. split; [reflexivity|]. apply Rmult_eq_reg_l with x; lra.
  Qed.
  Lemma split x y x' y' : 0 <= y <= x -> 0 <= y' <= x' -> x * x + y * y = x' * x' + y' * y' -> x * y = x' * y' -> x = x' /\ y = y'.
  Proof.
    intros A B E F.
    assert (x + y = x' + y') by (apply sq_inj; nra). assert (x - y = x' - y') by (apply sq_inj; nra). lra.
  Qed.
  (** the energies depend on the masses and the total energy only *)
  Lemma pairs x0 y0 x1 y1 x2 y2 x3 y3 w : 0 < x0 -> 0 <= y0 <= x0 -> 0 <= y1 <= x1 -> 0 <= y2 <= x2 -> 0 <= y3 <= x3 ->
    x0 * x0 + y1 * y1 = w -> x1 * x1 + y0 * y0 = w -> x2 * x2 + y3 * y3 = w -> x3 * x3 + y2 * y2 = w -> x0 * y0 = x2 * y2 -> x1 * y1 = x3 * y3 ->
    (x0 = x2 /\ y0 = y2) /\ x1 = x3 /\ y1 = y3.
  Proof.
    intros A B0 B1 B2 B3 E0 E1 E2 E3 F G.
    assert (Pw : 0 < w) by nra.
    assert (S0 : w * (x0 * x0 + y0 * y0) = w * w + (x0 * y0) * (x0 * y0) - (x1 * y1) * (x1 * y1)).
    { replace (y0 * y0) with (w - x1 * x1) by lra. replace ((x0 * y0) * (x0 * y0)) with ((w - y1 * y1) * (w - x1 * x1)) by (rewrite <- E1 at 2; rewrite <- E0; ring). ring_simplify. replace (x0 ^ 2) with (w - y1 * y1) by lra. ring. }
    assert (S2 : w * (x2 * x2 + y2 * y2) = w * w + (x2 * y2) * (x2 * y2) - (x3 * y3) * (x3 * y3)).
    { replace (y2 * y2) with (w - x3 * x3) by lra. replace ((x2 * y2) * (x2 * y2)) with ((w - y3 * y3) * (w - x3 * x3)) by (rewrite <- E3 at 2; rewrite <- E2; ring). ring_simplify. replace (x2 ^ 2) with (w - y3 * y3) by lra. ring. }
    assert (U : x0 * x0 + y0 * y0 = x2 * x2 + y2 * y2). { apply Rmult_eq_reg_l with w; [|lra]. rewrite S0, S2, F, G. reflexivity. }
    split; [exact (split _ _ _ _ B0 B2 U F)|]. apply split; try assumption. lra.
  Qed.
  Lemma ev_sq l a : rho l = RtoC a -> ev (sq l) = RtoC (a * a).
  Proof. intros E. unfold sq. cbn [weval]. rewrite wvar_ok, E, RtoC_mult. change (IZR 0) with 0. ring. Qed.
  Lemma ev_mono l l' a b : rho l = RtoC a -> rho l' = RtoC b -> ev (mono l l') = RtoC (a * b).
  Proof. intros E E'. unfold mono. cbn [weval]. rewrite wvar_ok, E, E', RtoC_mult. change (IZR 0) with 0. ring. Qed.
  Lemma ev_mono4 l l' a b : rho l = RtoC a -> rho l' = RtoC b -> ev (mono4 l l') = RtoC (a * a * (b * b)).
  Proof. intros E E'. unfold mono4. cbn [weval]. rewrite (ev_sq l' b E'), E, !RtoC_mult. change (IZR 0) with 0. ring. Qed.
  Lemma ev_var l a : rho l = RtoC a -> ev (wvar l) = RtoC a.
  Proof. intros E. rewrite wvar_ok. exact E. Qed.
  Lemma ev_w0 k l : rho l = RtoC (Y k) -> ev (w0 (mtag_eqb (t k) M0) (wvar l)) = RtoC (Y k).
  Proof. intros E. destruct (mtag_eqb (t k) M0) eqn:B; cbn [w0]; [rewrite (H0 k B); reflexivity|exact (ev_var l _ E)]. Qed.
  Lemma ev_w0sq k l : rho l = RtoC (Y k) -> ev (w0 (mtag_eqb (t k) M0) (sq l)) = RtoC (Y k * Y k).
  Proof. intros E. destruct (mtag_eqb (t k) M0) eqn:B; cbn [w0]; [rewrite (H0 k B), Rmult_0_l; reflexivity|exact (ev_sq l _ E)]. Qed.
  Lemma ev_add p q a b : ev p = RtoC a -> ev q = RtoC b -> ev (wadd p q) = RtoC (a + b).
  Proof. intros E E'. rewrite wadd_ok, E, E', RtoC_plus. reflexivity. Qed.
  Lemma ev_sub p q a b : ev p = RtoC a -> ev q = RtoC b -> ev (wsub p q) = RtoC (a - b).
  Proof. intros E E'. rewrite wsub_ok, E, E'. unfold Rminus. rewrite RtoC_plus, RtoC_opp. reflexivity. Qed.
  Lemma sq_rule l a p b : rho l = RtoC a -> ev p = RtoC b -> a * a = b -> (rho l * rho l = ev p)%C.
  Proof. intros -> -> <-. rewrite RtoC_mult. reflexivity. Qed.

  Definition kin_good (n : kin) : Prop :=
    (forall k, (k < 4)%nat -> ev (n_x n k) = RtoC (X k) /\ ev (n_y n k) = RtoC (Y k)) /\ (forall l r, kin_rule n l = Some r -> (rho l * rho l = ev r)%C).
  Lemma kin_four n :
    (forall a, In a [0; 1; 2; 3]%nat -> ev (n_x n a) = RtoC (X a) /\ ev (n_y n a) = RtoC (Y a)) ->
    match n_18 n with Some r => (rho v18 * rho v18 = ev r)%C | None => True end -> match n_19 n with Some r => (rho v19 * rho v19 = ev r)%C | None => True end ->
    match n_20 n with Some r => (rho v20 * rho v20 = ev r)%C | None => True end -> match n_21 n with Some r => (rho v21 * rho v21 = ev r)%C | None => True end -> kin_good n.
  Proof.
    intros A B18 B19 B20 B21. split.
    - intros k Hk. apply A. destruct k as [|[|[|[|k]]]]; [..|lia]; cbn; tauto.
    - intros l r H. destruct l; try discriminate H; cbn in H; rewrite H in *; assumption.
  Qed.
  Lemma val_eq p a b : ev p = RtoC a -> a = b -> ev p = RtoC b.
  Proof. intros E <-. exact E. Qed.
  Ltac vals := lazymatch goal with
    | |- ev (w0 _ (wvar _)) = _ => eapply ev_w0; eassumption
    | |- ev (w0 _ (sq _)) = _ => eapply ev_w0sq; eassumption
    | |- ev (mono4 _ _) = _ => eapply ev_mono4; eassumption
    | |- ev (mono _ _) = _ => eapply ev_mono; eassumption
    | |- ev (sq _) = _ => eapply ev_sq; eassumption
    | |- ev (wvar _) = _ => eapply ev_var; eassumption
    | |- ev (wadd _ _) = _ => eapply ev_add; vals
    | |- ev (wsub _ _) = _ => eapply ev_sub; vals
    | |- ev (WL _) = _ => reflexivity end.
  Ltac legs := let a := fresh in let H := fresh in intros a H; cbn [In] in H; repeat destruct H as [<-|H]; try contradiction; cbn [n_x n_y of4]; (split; eapply val_eq; [vals| |vals|]).
  Ltac rules := cbn [n_18 n_19 n_20 n_21]; (exact I || (eapply sq_rule; [eassumption|vals|])).
  Lemma kin_ok i : kid_fits i t = true -> let n := kin_of i (fun k => mtag_eqb (t k) M0) in
    (forall l, In l [v18; v19; v20; v21; v22; v23; v24; v25] -> rho l = RtoC (qv (n_q n l))) -> kin_good n.
  Proof.
    intros F n E.
    pose proof (E v18 ltac:(cbn; tauto)) as E18. pose proof (E v19 ltac:(cbn; tauto)) as E19. pose proof (E v20 ltac:(cbn; tauto)) as E20. pose proof (E v21 ltac:(cbn; tauto)) as E21.
    pose proof (E v22 ltac:(cbn; tauto)) as E22. pose proof (E v23 ltac:(cbn; tauto)) as E23. pose proof (E v24 ltac:(cbn; tauto)) as E24. pose proof (E v25 ltac:(cbn; tauto)) as E25. clear E.
    pose proof (HX 0%nat) as P0. pose proof (HX 1%nat) as P1. pose proof (HX 2%nat) as P2. pose proof (HX 3%nat) as P3.
    pose proof (HY 0%nat) as Q0. pose proof (HY 1%nat) as Q1. pose proof (HY 2%nat) as Q2. pose proof (HY 3%nat) as Q3.
    assert (T01 : mtag_eqb (t 0%nat) (t 1%nat) = true -> X 0 = X 1 /\ Y 0 = Y 1) by (intros B; apply twins; try assumption; [lra|apply HT; exact B]).
    assert (T23 : mtag_eqb (t 2%nat) (t 3%nat) = true -> X 2 = X 3 /\ Y 2 = Y 3) by (intros B; apply twins; try assumption; [lra|apply HT; exact B]).
    pose proof (HYX 0%nat) as B0. pose proof (HYX 1%nat) as B1. pose proof (HYX 2%nat) as B2. pose proof (HYX 3%nat) as B3.
    unfold n in *. clear n. destruct i; cbn -[RtoC qv] in E18, E19, E20, E21, E22, E23, E24, E25; cbn [qv] in E18, E19, E20, E21, E22, E23, E24, E25; cbn [kid_fits] in F; cbv beta iota zeta delta [kin_of].
    all: repeat match goal with H : (_ && _)%bool = true |- _ => apply andb_prop in H; let A := fresh "F" in let B := fresh "F" in destruct H as [A B] end.
    all: repeat match goal with H : mtag_eqb (t _) M0 = true |- _ => let Y0 := fresh "Y0" in pose proof (H0 _ H) as Y0; clear H end.
    all: repeat match goal with H : mtag_eqb (t _) (t _) = true |- _ => let A := fresh "M" in pose proof (HT _ _ H) as A; revert H end; intros.
    all: repeat match goal with H : mtag_eqb (t 0%nat) (t 1%nat) = true |- _ => let A := fresh in let B := fresh in destruct (T01 H) as [A B]; clear H end.
    all: repeat match goal with H : mtag_eqb (t 2%nat) (t 3%nat) = true |- _ => let A := fresh in let B := fresh in destruct (T23 H) as [A B]; clear H end.
    all: repeat match goal with H : mtag_eqb (t _) (t _) = true |- _ => clear H end.
    all: try match goal with A : X 0 * Y 0 = X 2 * Y 2, B : X 1 * Y 1 = X 3 * Y 3 |- _ => let D := fresh in pose proof (pairs _ _ _ _ _ _ _ _ W P0 (conj Q0 B0) (conj Q1 B1) (conj Q2 B2) (conj Q3 B3) H01 H10 H23 H32 A B) as D; destruct D as ((?&?)&?&?) end.
    all: try match goal with A : X 0 * Y 0 = X 3 * Y 3, B : X 1 * Y 1 = X 2 * Y 2 |- _ => let D := fresh in pose proof (pairs _ _ _ _ _ _ _ _ W P0 (conj Q0 B0) (conj Q1 B1) (conj Q3 B3) (conj Q2 B2) H01 H10 H32 H23 A B) as D; destruct D as ((?&?)&?&?) end.
    all: try match goal with A : X 0 * Y 0 = X 1 * Y 1, A' : X 0 * Y 0 = X 2 * Y 2, B : X 0 * Y 0 = X 3 * Y 3 |- _ => let D := fresh in pose proof (pairs _ _ _ _ _ _ _ _ W P0 (conj Q0 B0) (conj Q1 B1) (conj Q2 B2) (conj Q3 B3) H01 H10 H23 H32 A' (eq_trans (eq_sym A) B)) as D; destruct D as ((?&?)&?&?) end.
    all: apply kin_four; [legs|rules..].
    all: try reflexivity.
    all: try assumption.
    all: try lra.
    all: try solve [apply sq_inj; nra].
    all: try solve [match goal with |- X _ = X _ => apply sq_inj; [apply Rlt_le; apply HX|apply Rlt_le; apply HX|]; repeat match goal with H : Y _ = 0 |- _ => rewrite H in *; clear H end; lra end].
    all: try solve [field; lra].
    all: try solve [match goal with |- X _ * X _ = _ => repeat match goal with H : X _ = X _ |- _ => rewrite H in * end; repeat match goal with H : Y _ = Y _ |- _ => rewrite H in * end; repeat match goal with H : Y _ = 0 |- _ => rewrite H in *; clear H end; lra end].
    all: try solve [match goal with |- ?b * (?a / ?c) = ?d => apply Rmult_eq_reg_r with c; [field_simplify; lra|lra] end].
    all: try solve [match goal with |- ?y / ?x * (?y / ?x) = _ => apply Rmult_eq_reg_r with (x * x); [field_simplify; [|lra|lra]; repeat match goal with H : Y _ = 0 |- _ => rewrite H in *; clear H end; lra|nra] end].
    all: match goal with |- _ = _ - ?a * ?a * (?b / ?c * (?b / ?c)) =>
      first [ replace (a * a * (b / c * (b / c))) with (b * b) by (field; lra); lra
            | match goal with M : c * ?d = b * a |- _ => replace (a * a * (b / c * (b / c))) with (d * d); [|replace d with (b * a / c) by (rewrite <- M; field; lra); field; lra] end;
              repeat match goal with H : Y _ = 0 |- _ => rewrite H in *; clear H end; lra ] end.
  Qed.
End Kin.
