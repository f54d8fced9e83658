(** * Feynman rules for four fermions

    The textbook side of C56: the tree amplitude of two fermions going into two fermions in
    the Standard Model (unitary gauge, no quark mixing), from Dirac spinors, gamma matrices
    and the vertices.  Nothing here refers to the code. *)
From Coq Require Import Reals String Lra Lia.
From Coquelicot Require Import Complex.
From Verif Require Import Base SpinColour.
Open Scope nat_scope.

(** ** Dirac matrices, chiral representation *)
Section Dirac.
  Open Scope C_scope.
  Definition spin4 : Type := nat -> C.
  Definition sum4 (f : nat -> C) : C := f 0%nat + f 1%nat + f 2%nat + f 3%nat.
  (** 1 and the Pauli matrices *)
  Definition pauli (mu i j : nat) : C :=
    match mu, i, j with
    | 0, 0, 0 => RtoC 1 | 0, 1, 1 => RtoC 1
    | 1, 0, 1 => RtoC 1 | 1, 1, 0 => RtoC 1
    | 2, 0, 1 => Copp Ci | 2, 1, 0 => Ci
    | 3, 0, 0 => RtoC 1 | 3, 1, 1 => Copp (RtoC 1)
    | _, _, _ => RtoC 0
    end%nat.
  (** the metric (+,-,-,-) *)
  Definition metric (mu : nat) : C := match mu with O => RtoC 1 | _ => Copp (RtoC 1) end.
  Definition gamma (mu a b : nat) : C :=
    match a, b with
    | 0, 2 => pauli mu 0%nat 0%nat | 0, 3 => pauli mu 0%nat 1%nat | 1, 2 => pauli mu 1%nat 0%nat | 1, 3 => pauli mu 1%nat 1%nat
    | 2, 0 => (metric mu * pauli mu 0%nat 0%nat)%C | 2, 1 => (metric mu * pauli mu 0%nat 1%nat)%C
    | 3, 0 => (metric mu * pauli mu 1%nat 0%nat)%C | 3, 1 => (metric mu * pauli mu 1%nat 1%nat)%C
    | _, _ => RtoC 0
    end%nat.
  Definition one4 (a b : nat) : C := if Nat.eqb a b then RtoC 1 else RtoC 0.
  Definition mul4 (A B : nat -> nat -> C) (a b : nat) : C := sum4 (fun d => A a d * B d b).
  (** 1 - gamma5 over 2 keeps the components 0 and 1, 1 + gamma5 over 2 the others; [chir]
      is gL (1 - gamma5)/2 + gR (1 + gamma5)/2 *)
  Definition gamma5 (a b : nat) : C :=
    Ci * mul4 (gamma 0) (mul4 (gamma 1) (mul4 (gamma 2) (gamma 3))) a b.
  Definition chir (g : R * R) (b : nat) : C := match b with 0 | 1 => RtoC (fst g) | _ => RtoC (snd g) end%nat.
  Definition bar (u : spin4) : spin4 := fun b => sum4 (fun a => Cconj (u a) * gamma 0 a b).
  (** p-slash *)
  Definition slash (p : nat -> C) (a b : nat) : C := sum4 (fun mu => metric mu * p mu * gamma mu a b).
  (** r gamma^mu (gL P_L + gR P_R) c, contracted with itself and with a momentum, and r c *)
  Definition current (g : R * R) (r c : spin4) (mu : nat) : C :=
    sum4 (fun a => sum4 (fun b => r a * gamma mu a b * chir g b * c b)).
  Definition dotJ (J K : nat -> C) : C := sum4 (fun mu => metric mu * J mu * K mu).
  Definition bilinear (r c : spin4) : C := sum4 (fun a => r a * c a).

  Ltac entries := repeat match goal with
    | |- context [Cmult (RtoC 0) ?x] => rewrite (Cmult_0_l x)
    | |- context [Cmult ?x (RtoC 0)] => rewrite (Cmult_0_r x)
    | |- context [Cplus (RtoC 0) ?x] => rewrite (Cplus_0_l x)
    | |- context [Cplus ?x (RtoC 0)] => rewrite (Cplus_0_r x)
    | |- context [Cmult (RtoC 1) ?x] => rewrite (Cmult_1_l x)
    | |- context [Cmult ?x (RtoC 1)] => rewrite (Cmult_1_r x)
    end.
  Lemma clifford mu nu a b : (mu < 4)%nat -> (nu < 4)%nat -> (a < 4)%nat -> (b < 4)%nat ->
    mul4 (gamma mu) (gamma nu) a b + mul4 (gamma nu) (gamma mu) a b =
    (if Nat.eqb mu nu then RtoC 2 * metric mu else RtoC 0) * one4 a b.
  Proof.
    intros H1 H2 H3 H4. unfold mul4, sum4, one4.
    destruct a as [|[|[|[|]]]]; [..|lia]; destruct b as [|[|[|[|]]]]; [..|lia| | | | |lia| | | | |lia| | | | |lia];
    cbn [gamma Nat.eqb]; entries; try reflexivity;
    (destruct mu as [|[|[|[|]]]]; [..|lia]; destruct nu as [|[|[|[|]]]]; [..|lia| | | | |lia| | | | |lia| | | | |lia]);
    cbn [pauli metric Nat.eqb]; entries; try reflexivity;
    unfold Ci, Cplus, Cmult, Copp, RtoC; cbn [fst snd]; f_equal; ring.
  Qed.
  Lemma gamma5_chiral a b : (a < 4)%nat -> (b < 4)%nat ->
    gamma5 a b = (match a with 0 | 1 => Copp (RtoC 1) | _ => RtoC 1 end)%nat * one4 a b.
  Proof.
    intros H1 H2. unfold gamma5, mul4, sum4, one4.
    destruct a as [|[|[|[|]]]]; [..|lia]; destruct b as [|[|[|[|]]]]; [..|lia| | | | |lia| | | | |lia| | | | |lia];
    cbn [gamma pauli metric Nat.eqb]; entries; try reflexivity;
    unfold Ci, Cplus, Cmult, Copp, RtoC; cbn [fst snd]; f_equal; ring.
  Qed.
End Dirac.

(** ** The particles *)
Inductive flavour : Type := Fe | Fm | Fl | Fne | Fnm | Fnl | Fu | Fc | Ft | Fd | Fs | Fb.
Definition is_quark (f : flavour) : bool := match f with Fu | Fc | Ft | Fd | Fs | Fb => true | _ => false end.
Definition is_neutrino (f : flavour) : bool := match f with Fne | Fnm | Fnl => true | _ => false end.
Definition is_up (f : flavour) : bool := match f with Fu | Fc | Ft | Fne | Fnm | Fnl => true | _ => false end.
Definition generation (f : flavour) : nat :=
  match f with Fe | Fne | Fu | Fd => 1 | Fm | Fnm | Fc | Fs => 2 | Fl | Fnl | Ft | Fb => 3 end.
Definition flavour_eqb (f g : flavour) : bool :=
  Bool.eqb (is_quark f) (is_quark g) && Bool.eqb (is_up f) (is_up g) && Nat.eqb (generation f) (generation g).
(** electric charge and weak isospin *)
Definition charge (f : flavour) : R :=
  (if is_quark f then if is_up f then 2 / 3 else - (1 / 3) else if is_up f then 0 else -1)%R.
Definition isospin (f : flavour) : R := (if is_up f then 1 / 2 else - (1 / 2))%R.

(** couplings, masses and widths *)
Record standard_model : Type := mkSM {
  sm_e : R; sm_gs : R; sm_sw : R; sm_mW : R; sm_mh : R; sm_wZ : R; sm_wW : R; sm_wh : R; sm_mass : flavour -> R }.
Definition sm_cw (P : standard_model) : R := sqrt (1 - sm_sw P * sm_sw P).
Inductive boson : Type := BA | BZ | BW | Bh | Bg.
Definition b_mass (P : standard_model) (b : boson) : R :=
  match b with BA | Bg => 0 | BZ => sm_mW P / sm_cw P | BW => sm_mW P | Bh => sm_mh P end%R.
Definition b_width (P : standard_model) (b : boson) : R :=
  match b with BA | Bg => 0 | BZ => sm_wZ P | BW => sm_wW P | Bh => sm_wh P end%R.

(** ** Vertices: (gL, gR) for the vectors, the Yukawa coupling for the Higgs boson *)
Definition v_coupling (P : standard_model) (b : boson) (f : flavour) : R * R :=
  match b with
  | BA => (sm_e P * charge f, sm_e P * charge f)
  | BZ => let g := sm_e P / (2 * sm_sw P * sm_cw P) in
          (g * (2 * isospin f - 2 * charge f * (sm_sw P * sm_sw P)), g * (- 2 * charge f * (sm_sw P * sm_sw P)))
  | BW => (sm_e P / (sqrt 2 * sm_sw P), 0)
  | Bg => (sm_gs P, sm_gs P)
  | Bh => (0, 0)
  end%R.
Definition yukawa (P : standard_model) (f : flavour) : R := (sm_e P * sm_mass P f / (2 * sm_mW P * sm_sw P))%R.

(** ** Processes: legs 0 and 1 come in, 2 and 3 go out *)
Record fleg : Type := mkLeg { l_flavour : flavour; l_anti : bool }.
Definition process : Type := (fleg * fleg * fleg * fleg)%type.
Definition leg_at (p : process) (k : nat) : fleg :=
  let '(a, b, c, d) := p in match k with 0 => a | 1 => b | 2 => c | _ => d end.
Definition goes_out (k : nat) : bool := (2 <=? k)%nat.
(** Spinors in the amplitude: u for a particle coming in, v for an antiparticle going out (the
    end [c] of a fermion line), bar u for a particle going out, bar v for an antiparticle
    coming in (the end [r]). *)
Definition is_column (p : process) (k : nat) : bool := Bool.eqb (l_anti (leg_at p k)) (goes_out k).
Definition columns (p : process) : list nat := filter (is_column p) (seq 0 4).
Definition rows (p : process) : list nat := filter (fun k => negb (is_column p k)) (seq 0 4).
Definition colour_number (l : fleg) : nat := if is_quark (l_flavour l) then 3 else 1.
Definition spin_number (l : fleg) : nat := if is_neutrino (l_flavour l) then 1 else 2.
Definition leg_eqb (a b : fleg) : bool := flavour_eqb (l_flavour a) (l_flavour b) && Bool.eqb (l_anti a) (l_anti b).
(** states of the initial particles, and 2 for identical final ones *)
Definition states_number (p : process) : nat :=
  spin_number (leg_at p 0) * spin_number (leg_at p 1) * colour_number (leg_at p 0) * colour_number (leg_at p 1) *
  (if leg_eqb (leg_at p 2) (leg_at p 3) then 2 else 1).
Definition colours_of (p : process) : list (list nat) := cart (map (fun k => seq 0 (colour_number (leg_at p k))) (seq 0 4)).

(** ** Diagrams: the exchange of a boson between two fermion lines *)
Record diagram : Type := mkDiagram { d_boson : boson; d_r : nat; d_c : nat; d_r' : nat; d_c' : nat; d_sign : R }.
(** a line of one flavour, or of the two of a doublet *)
Definition same_flavour (p : process) (r c : nat) : bool := flavour_eqb (l_flavour (leg_at p r)) (l_flavour (leg_at p c)).
Definition doublet (p : process) (r c : nat) : bool :=
  let f := l_flavour (leg_at p r) in let g := l_flavour (leg_at p c) in
  Bool.eqb (is_quark f) (is_quark g) && Nat.eqb (generation f) (generation g) && negb (Bool.eqb (is_up f) (is_up g)).
Definition exchanged (p : process) (b : boson) (r c r' c' : nat) : bool :=
  let quark k := is_quark (l_flavour (leg_at p k)) in let neutrino k := is_neutrino (l_flavour (leg_at p k)) in
  match b with
  | BA | Bh => same_flavour p r c && same_flavour p r' c' && negb (neutrino r) && negb (neutrino r')
  | BZ => same_flavour p r c && same_flavour p r' c'
  | Bg => same_flavour p r c && same_flavour p r' c' && quark r && quark r'
  | BW => doublet p r c && doublet p r' c' && negb (Bool.eqb (is_up (l_flavour (leg_at p r))) (is_up (l_flavour (leg_at p r'))))
  end.
(** Exchanging the ends of the lines changes the sign of the amplitude. *)
Definition diagrams (bs : list boson) (p : process) : list diagram :=
  match rows p, columns p with
  | [r; r'], [c; c'] =>
      map (fun b => mkDiagram b r c r' c' 1) (filter (fun b => exchanged p b r c r' c') bs) ++
      map (fun b => mkDiagram b r' c r c' (-1)) (filter (fun b => exchanged p b r' c r c') bs)
  | _, _ => []
  end.
(** colour: the quarks of a line have the same colour, or exchange a gluon *)
Definition d_colour (p : process) (d : diagram) : tensor :=
  let quark k := is_quark (l_flavour (leg_at p k)) in
  match d_boson d, quark (d_r d), quark (d_r' d) with
  | Bg, _, _ => Texch (d_r d) (d_c d) (d_r' d) (d_c' d)
  | _, true, true => Tlines (d_r d) (d_c d) (d_r' d) (d_c' d)
  | _, true, false => Tline (d_r d) (d_c d)
  | _, false, true => Tline (d_r' d) (d_c' d)
  | _, false, false => Tsinglet
  end.

Section Amplitude.
  Open Scope R_scope.
  Variable P : standard_model.
  Variable p : process.
  Variable q : nat -> nat -> R.             (* the momenta of the legs *)
  (** all momenta as coming in; the momentum that a line gives to the boson *)
  Definition ingoing (k mu : nat) : R := if goes_out k then - q k mu else q k mu.
  Definition transfer (r c mu : nat) : R := ingoing r mu + ingoing c mu.
  Definition square4 (k : nat -> R) : R := k 0%nat * k 0%nat - k 1%nat * k 1%nat - k 2%nat * k 2%nat - k 3%nat * k 3%nat.
  (** k^2 - M^2 - i M w *)
  Definition propagator_den (b : boson) (k : nat -> R) : C :=
    (square4 k - b_mass P b * b_mass P b, - (b_mass P b * b_width P b)).
  Definition flavour_of (k : nat) : flavour := l_flavour (leg_at p k).
  (** A vector boson: J.J' - (k.J)(k.J')/M^2 over the denominator, without the second term for
      photon and gluon.  The Higgs boson: - y y' (r c)(r' c') over the denominator. *)
  Definition diagram_value (d : diagram) (w : nat -> spin4) : C :=
    let k := transfer (d_r d) (d_c d) in
    let f := flavour_of (d_c d) in let f' := flavour_of (d_c' d) in
    let num :=
      match d_boson d with
      | Bh => Cmult (RtoC (- (yukawa P f * yukawa P f'))) (Cmult (bilinear (w (d_r d)) (w (d_c d))) (bilinear (w (d_r' d)) (w (d_c' d))))
      | b => let J := current (v_coupling P b f) (w (d_r d)) (w (d_c d)) in
             let J' := current (v_coupling P b f') (w (d_r' d)) (w (d_c' d)) in
             let kC := fun mu => RtoC (k mu) in
             match b with
             | BA | Bg => dotJ J J'
             | _ => Cminus (dotJ J J') (Cdiv (Cmult (dotJ kC J) (dotJ kC J')) (RtoC (b_mass P b * b_mass P b)))
             end
      end in
    Cmult (RtoC (d_sign d)) (Cdiv num (propagator_den (d_boson d) k)).
  Definition feynman_amplitude (bs : list boson) (w : nat -> spin4) (col : list nat) : C :=
    Csum (fun d => Cmult (tensor_at (d_colour p d) col) (diagram_value d w)) (diagrams bs p).

  (** Two spinors of a leg, one for each spin: u_0, u_1 with u_0 bar u_0 + u_1 bar u_1 = p-slash + m,
      for antiparticles - m. *)
  Definition complete_spinors (k : nat) (chi : bool -> spin4) : Prop :=
    forall a b, (a < 4)%nat -> (b < 4)%nat ->
      (chi false a * bar (chi false) b + chi true a * bar (chi true) b =
       slash (fun mu => RtoC (q k mu)) a b
       + RtoC (if l_anti (leg_at p k) then - sm_mass P (flavour_of k) else sm_mass P (flavour_of k)) * one4 a b)%C.
  Definition wave (chi : nat -> bool -> spin4) (s : nat -> bool) (k : nat) : spin4 :=
    if is_column p k then chi k (s k) else bar (chi k (s k)).
End Amplitude.

(** The square of the amplitude: summed over spins and colours, averaged over the initial
    ones. *)
Fixpoint rsum {A} (f : A -> R) (l : list A) : R := match l with [] => 0%R | x :: l' => (f x + rsum f l')%R end.
Definition spin_choices : list (nat -> bool) :=
  flat_map (fun a => flat_map (fun b => flat_map (fun c => map (fun d =>
    fun k : nat => match k with 0 => a | 1 => b | 2 => c | _ => d end) [false; true]) [false; true]) [false; true]) [false; true].
Definition feynman_amp2 (P : standard_model) (p : process) (bs : list boson) (q : nat -> nat -> R) (chi : nat -> bool -> spin4) : R :=
  (/ INR (states_number p) *
   rsum (fun s => rsum (fun col => Cmod (feynman_amplitude P p q bs (wave p chi s) col) ^ 2) (colours_of p)) spin_choices)%R.
