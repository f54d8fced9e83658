(** * C38: reading uninitialised members *)
From Coq Require Import Reals Lra List.
From Verif Require Import Base Scalar Linear Particle Sproduct World InitProofs RealNum ParticleReal SpecSpinor ParticleClaims.
Import ListNotations.
Open Scope nat_scope.

Definition empty_world (num : Num) : world num := mkWorld [] [].

(** REFUTED, in every arithmetic and for all masses: constructing <0|1|2> (or [0|1|2]) over
    three particles that were built with particle(mass) reads pxymag and phi of particle 1,
    which nothing has initialised.  This is how every process class with an internal momentum
    constructs its sproducts. *)
Theorem C38_construction_refuted :
  forall (num : Num) (g : nat -> T num) (m0 m1 m2 : T num) (angle : bool),
    strict num = true ->   (* undefined behaviour is reported, not papered over *)
    fst (wrun [WMass g m0; WMass g m1; WMass g m2; WSMake angle 0 true [1] 2 true] (empty_world num))
    = [Ok RUnit; Ok RUnit; Ok RUnit; UB ReadIndeterminate].
Proof.
  intros num g m0 m1 m2 angle HS. unfold empty_world. cbn [wrun wstep w_heap w_sps app fst].
  destruct (teqb m0 (tZ 0)) eqn:E0, (teqb m2 (tZ 0)) eqn:E2, angle;
    cbv -[strict teqb tZ polar cm_mul]; rewrite E0; cbv -[strict teqb tZ polar cm_mul]; rewrite E2;
    cbv -[strict teqb tZ polar cm_mul]; rewrite HS; reflexivity.
Qed.
Print Assumptions C38_construction_refuted.

Example C38_refuted_example : forall eps, strict (RN true eps) = true.
Proof. reflexivity. Qed.

(** ** What does hold *)

(** The particles that have been given a momentum: built by particle(q,m), or by
    particle(m) and a later successful set_momentum (or update). *)
Definition now_given {num} (given : list addr) (c : wcall num) (r : outcome (wval num)) (w : world num)
  : list addr :=
  match c, r with
  | WMom _ _ _, Ok _ => length (w_heap w) :: given
  | WPart a (CSetMomentum _ | CUpdate), Ok _ => a :: given
  | _, _ => given
  end.
(** A history that uses no default-constructed object, and uses as internal momenta, in the
    momentum matrices, generators and test_angles only particles that have been given a
    momentum. *)
Fixpoint careful {num} (given : list addr) (h : list (wcall num)) (w : world num) : Prop :=
  match h with
  | [] => True
  | c :: h' =>
      match c with
      | WDefault _ | WSDefault => False
      | WPart a (CTestAngles | CMat _ | CGenerator _) => In a given
      | WSMake _ _ _ mid _ _ => Forall (fun a => In a given) mid
      | _ => True
      end /\ careful (now_given given c (fst (wstep c w)) w) h' (snd (wstep c w))
  end.

(** In every arithmetic, no careful history reads an indeterminate value.  Missing from the
    full statement: internal momenta that have not been given a momentum (refuted above). *)
Theorem C38_initialised_partial :
  forall (num : Num) (h : list (wcall num)),
    careful [] h (empty_world num) ->
    Forall (fun r => r <> UB ReadIndeterminate) (fst (wrun h (empty_world num))).
Proof.
  intros num h.
  assert (W0 : winv [] (empty_world num)).
  { split; [|split].
    - intros [|a] P E; discriminate.
    - intros sp [].
    - intros a []. }
  revert W0. generalize (@nil addr) as given, (empty_world num) as w.
  induction h as [|c h IH]; intros given w HW HC; [constructor|].
  cbn [careful] in HC. destruct HC as [HA HC].
  assert (HA' : allowed given c).
  { destruct c; cbn [allowed]; auto. intros a Ha. rewrite Forall_forall in HA. auto. }
  destruct (wstep_init given c w HW HA') as [G1 G2].
  assert (EG : given_after given c w = now_given given c (fst (wstep c w)) w)
    by (unfold given_after, now_given; destruct c as [| | |a o| | | | | | |]; try reflexivity; destruct o; reflexivity).
  rewrite EG in G2. specialize (IH _ _ G2 HC).
  cbn [wrun]. destruct (wstep c w) as [r w']. cbn [fst snd] in *.
  destruct (wrun h w') as [rs w'']. cbn [fst] in *. constructor; assumption.
Qed.
Print Assumptions C38_initialised_partial.

(** A careful history: the same product, after setting the momentum of particle 1. *)
Example C38_example : forall st eps, (0 <= eps)%R ->
  let h : list (wcall (RN st eps)) :=
           [WMass (num:=RN st eps) (fun _ => 0%R) 12%R; WMass (num:=RN st eps) (fun _ => 0%R) 12%R;
            WPart (num:=RN st eps) 1 (CSetMomentum (num:=RN st eps) (V4 13 3 4 0)%R);
            WSMake true 0 true [1] 0 true; WUpdate 0; WV2 0 1 (-1)] in
  careful [] h (empty_world _) /\
  Forall (fun r => r <> UB ReadIndeterminate) (fst (wrun h (empty_world _))).
Proof.
  intros st eps He h.
  assert (H : careful [] h (empty_world _)).
  2:{ split; [exact H|]. apply C38_initialised_partial, H. }
  unfold h. cbn [careful].
  cbn [wstep fst snd now_given empty_world w_heap w_sps app nth_error pstep].
  unfold smap, sbind.
  destruct (set_momentum_real st eps (V4 13 3 4 0)%R 12%R (particle_mass (num:=RN st eps) (fun _ => 0%R) 12%R) eq_refl)
    as [(H & _)|(_ & P & H & _)].
  - exfalso. unfold minksq in H. cbn [v_0 v_1 v_2 v_3] in H.
    rewrite Rminus_diag_eq, Rabs_R0 in H by lra. lra.
  - rewrite H. cbn [fst snd omap sret]. repeat split. constructor; [left; reflexivity|constructor].
Qed.
