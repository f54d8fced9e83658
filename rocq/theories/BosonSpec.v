(** * Feynman rules with outer bosons

    The textbook side of C57: the tree amplitude of two particles going into two particles in
    the Standard Model (unitary gauge, no quark mixing, constant widths), from the vertices
    and propagators.  Nothing here refers to the code.  The rules are written for any
    type of numbers [K]; their meaning is the instance for the complex numbers at the end, the
    others are for computing in proofs. *)
From Coq Require Import Reals ZArith List Bool Lra Lia.
From Coquelicot Require Import Complex.
From Verif Require Import Base SpinColour Feynman.
Import ListNotations.
Close Scope R_scope.
Open Scope nat_scope.

Record ops (K : Type) : Type := mkOps { o_Z : Z -> K; o_add : K -> K -> K; o_mul : K -> K -> K; o_neg : K -> K }.
Arguments o_Z {K}. Arguments o_add {K}. Arguments o_mul {K}. Arguments o_neg {K}.

(** ** Vectors and spinors
    A vector v is given by v0 + v3, v0 - v3, v1 + i v2 and v1 - i v2; a Dirac spinor by its
    left and its right part (chiral representation, as in Feynman.v). *)
Record vec (K : Type) : Type := Vec { v_p : K; v_m : K; v_t : K; v_b : K }.
Arguments Vec {K}. Arguments v_p {K}. Arguments v_m {K}. Arguments v_t {K}. Arguments v_b {K}.
Record dir (K : Type) : Type := Dir { d_l0 : K; d_l1 : K; d_r0 : K; d_r1 : K }.
Arguments Dir {K}. Arguments d_l0 {K}. Arguments d_l1 {K}. Arguments d_r0 {K}. Arguments d_r1 {K}.

Inductive vkind : Type := VA | VG | VZ | VWp | VWm.
(** An outer particle, or what two of them make at a vertex.  All particles come in: [Vct VWp]
    is a W+ coming in or a W- going out, [Psi] the column of a fermion line (a fermion coming
    in or an antifermion going out), [Bar] its row.  What is made at a vertex carries the name
    of what would complete the vertex. *)
Inductive fld (K : Type) : Type :=
| Sca (x : K) | Vct (b : vkind) (v : vec K) | Psi (f : flavour) (s : dir K) | Bar (f : flavour) (s : dir K).
Arguments Sca {K}. Arguments Vct {K}. Arguments Psi {K}. Arguments Bar {K}.

(** The numbers of the model, in units of e: 1/2, 1/3, sqrt 2, sin and cos of the weak angle,
    masses, inverses. *)
Record consts (K : Type) : Type := mkConsts {
  c_half : K; c_third : K; c_sq2 : K; c_sw : K; c_isw : K; c_cw : K; c_icw : K; c_mW : K; c_imW : K; c_mh : K; c_fm : flavour -> K }.
Arguments c_half {K}. Arguments c_third {K}. Arguments c_sq2 {K}. Arguments c_sw {K}. Arguments c_isw {K}. Arguments c_cw {K}.
Arguments c_icw {K}. Arguments c_mW {K}. Arguments c_imW {K}. Arguments c_mh {K}. Arguments c_fm {K}.
(** An outer leg: sqrt (E + p), sqrt (E - p), cos and sin of half the polar angle (in the plane
    of the process), 1/m. *)
Record kleg (K : Type) : Type := mkKleg { k_x : K; k_y : K; k_c : K; k_s : K; k_im : K }.
Arguments mkKleg {K}. Arguments k_x {K}. Arguments k_y {K}. Arguments k_c {K}. Arguments k_s {K}. Arguments k_im {K}.

(** The outer particles *)
Inductive ptype : Type := PA | PG | PZ | PWp | PWm | Ph | Pf (f : flavour) | Pa (f : flavour).

Section Rules.
  Context {K : Type} (O : ops K).
  Notation zro := (o_Z O 0%Z). Notation one := (o_Z O 1%Z).
  Infix "+" := (o_add O). Infix "*" := (o_mul O). Notation "- x" := (o_neg O x).
  Notation "x - y" := (o_add O x (o_neg O y)).
  Notation two := (o_Z O 2%Z).
  Definition vaddK (v w : vec K) : vec K := Vec (v_p v + v_p w) (v_m v + v_m w) (v_t v + v_t w) (v_b v + v_b w).
  Definition vnegK (v : vec K) : vec K := Vec (- v_p v) (- v_m v) (- v_t v) (- v_b v).
  Definition vscal (a : K) (v : vec K) : vec K := Vec (a * v_p v) (a * v_m v) (a * v_t v) (a * v_b v).
  Definition dscal (a : K) (s : dir K) : dir K := Dir (a * d_l0 s) (a * d_l1 s) (a * d_r0 s) (a * d_r1 s).
  Definition daddK (s t : dir K) : dir K := Dir (d_l0 s + d_l0 t) (d_l1 s + d_l1 t) (d_r0 s + d_r0 t) (d_r1 s + d_r1 t).
  (** twice the Minkowski product *)
  Definition dot2 (v w : vec K) : K := (v_p v * v_m w + v_m v * v_p w) - (v_t v * v_b w + v_b v * v_t w).
  (** row times column *)
  Definition rc (r c : dir K) : K := (d_l0 r * d_l0 c + d_l1 r * d_l1 c) + (d_r0 r * d_r0 c + d_r1 r * d_r1 c).
  (** v-slash times a column, a row times v-slash *)
  Definition slashK (v : vec K) (c : dir K) : dir K :=
    Dir (v_m v * d_r0 c - v_b v * d_r1 c) (v_p v * d_r1 c - v_t v * d_r0 c)
        (v_p v * d_l0 c + v_b v * d_l1 c) (v_t v * d_l0 c + v_m v * d_l1 c).
  Definition rslash (r : dir K) (v : vec K) : dir K :=
    Dir (d_r0 r * v_p v + d_r1 r * v_t v) (d_r0 r * v_b v + d_r1 r * v_m v)
        (d_l0 r * v_m v - d_l1 r * v_t v) (d_l1 r * v_p v - d_l0 r * v_b v).
  (** gL P_L + gR P_R *)
  Definition chirK (g : K * K) (c : dir K) : dir K := Dir (fst g * d_l0 c) (fst g * d_l1 c) (snd g * d_r0 c) (snd g * d_r1 c).
  (** r gamma^mu c *)
  Definition jvec (r c : dir K) : vec K :=
    Vec (two * (d_l0 r * d_r0 c + d_r1 r * d_l1 c)) (two * (d_l1 r * d_r1 c + d_r0 r * d_l0 c))
        (two * (d_l0 r * d_r1 c - d_r0 r * d_l1 c)) (two * (d_l1 r * d_r0 c - d_r1 r * d_l0 c)).

  Variable E : consts K.
  Definition dotK (v w : vec K) : K := c_half E * dot2 v w.

  (** ** Vertices *)
  Definition chargeK (f : flavour) : K := if is_quark f then (if is_up f then two * c_third E else - c_third E) else if is_up f then zro else - one.
  Definition isospinK (f : flavour) : K := if is_up f then c_half E else - c_half E.
  Definition couplingK (b : vkind) (f : flavour) : K * K :=
    match b with
    | VA => (chargeK f, chargeK f)
    | VG => (one, one)
    | VZ => ((isospinK f - (c_sw E * c_sw E) * chargeK f) * (c_isw E * c_icw E), - (chargeK f * (c_sw E * c_icw E)))
    | VWp | VWm => (c_half E * (c_sq2 E * c_isw E), zro)
    end.
  Definition yukawaK (f : flavour) : K := - (c_half E * (c_fm E f * (c_isw E * c_imW E))).
  Definition hvv (b : vkind) : K := match b with VZ => c_mW E * (c_isw E * (c_icw E * c_icw E)) | _ => c_mW E * c_isw E end.
  Definition hhh : K := - (o_Z O 3%Z * (c_half E * ((c_mh E * c_mh E) * (c_isw E * c_imW E)))).
  (** photon and Z with two W *)
  Definition vww (b : vkind) : K := match b with VZ => - (c_cw E * c_isw E) | _ => - one end.
  (** three vectors, all coming in, the third one open *)
  Definition triple (g : K) (v1 k1 v2 k2 k3 : vec K) : vec K :=
    vscal g (vaddK (vscal (dotK v1 v2) (vaddK k1 (vnegK k2)))
            (vaddK (vscal (dotK v1 (vaddK k2 (vnegK k3))) v2) (vscal (dotK v2 (vaddK k3 (vnegK k1))) v1))).

  (** the flavour of a column that has taken a vector boson in, or of a row before that *)
  Definition partner (f : flavour) : flavour :=
    match f with Fe => Fne | Fne => Fe | Fm => Fnm | Fnm => Fm | Fl => Fnl | Fnl => Fl | Fu => Fd | Fd => Fu | Fc => Fs | Fs => Fc | Ft => Fb | Fb => Ft end.
  Definition charged (b : vkind) (f : flavour) : bool :=
    match b with VA => negb (is_neutrino f) | VG => is_quark f | _ => true end.
  Definition taken (b : vkind) (f : flavour) : option flavour :=
    match b with VWp => if is_up f then None else Some (partner f) | VWm => if is_up f then Some (partner f) else None
    | _ => if charged b f then Some f else None end.
  Definition before (b : vkind) (f : flavour) : option flavour :=
    match b with VWp => if is_up f then Some (partner f) else None | VWm => if is_up f then None else Some (partner f)
    | _ => if charged b f then Some f else None end.
  Definition antikind (b : vkind) : vkind := match b with VWp => VWm | VWm => VWp | b => b end.

  (** what a pair makes at a vertex; [k1], [k2] are their momenta *)
  Definition same_pair (x y : fld K) : list (fld K) :=
    match x, y with
    | Sca s, Sca t => [Sca ((hhh * s) * t)]
    | Vct VZ u, Vct VZ w => [Sca (hvv VZ * dotK u w)]
    | _, _ => [] end.
  Definition ordered_pair (x : fld K) (k1 : vec K) (y : fld K) (k2 : vec K) : list (fld K) :=
    let k3 := vnegK (vaddK k1 k2) in
    match x, y with
    | Bar f r, Psi g c =>
        (if flavour_eqb f g && negb (is_neutrino f) then [Sca (yukawaK f * rc r c)] else []) ++
        flat_map (fun b => match taken b g with Some f' => if flavour_eqb f f' then [Vct b (jvec r (chirK (couplingK b g) c))] else [] | None => [] end) [VA; VG; VZ; VWp; VWm]
    | Vct b v, Psi g c => match taken b g with Some f => [Psi f (slashK v (chirK (couplingK b g) c))] | None => [] end
    | Vct b v, Bar f r => match before b f with Some g => [Bar g (chirK (couplingK b g) (rslash r v))] | None => [] end
    | Sca s, Psi g c => if is_neutrino g then [] else [Psi g (dscal (yukawaK g * s) c)]
    | Sca s, Bar g c => if is_neutrino g then [] else [Bar g (dscal (yukawaK g * s) c)]
    | Sca s, Vct b v => match b with VA | VG => [] | _ => [Vct (antikind b) (vscal (hvv b * s) v)] end
    | Vct VWp u, Vct VWm w => [Sca (hvv VWp * dotK u w); Vct VA (triple (vww VA) u k1 w k2 k3); Vct VZ (triple (vww VZ) u k1 w k2 k3)]
    | Vct VA u, Vct VWp w => [Vct VWm (triple (vww VA) u k1 w k2 k3)]
    | Vct VZ u, Vct VWp w => [Vct VWm (triple (vww VZ) u k1 w k2 k3)]
    | Vct VA u, Vct VWm w => [Vct VWp (triple (vww VA) w k2 u k1 k3)]
    | Vct VZ u, Vct VWm w => [Vct VWp (triple (vww VZ) w k2 u k1 k3)]
    | _, _ => []
    end.
  Definition pair (x : fld K * vec K) (y : fld K * vec K) : list (fld K) :=
    same_pair (fst x) (fst y) ++ ordered_pair (fst x) (snd x) (fst y) (snd y) ++ ordered_pair (fst y) (snd y) (fst x) (snd x).

  (** ** Propagators: [prop j t] is 1/(k^2 - m^2 - i m w) for the particle t in channel j *)
  Variable prop : nat -> ptype -> K.
  Definition vkind_eqb (a b : vkind) : bool := match a, b with VA, VA | VG, VG | VZ, VZ | VWp, VWp | VWm, VWm => true | _, _ => false end.
  (** k is the momentum that the first one brings *)
  Definition line (j : nat) (k : vec K) (f : flavour) (r c : dir K) : K :=
    - ((c_fm E f * rc r c + rc r (slashK k c)) * prop j (Pf f)).
  Definition vec_exchange (j : nat) (k : vec K) (b : vkind) (u w : vec K) : K :=
    match b with
    | VA => dotK u w * prop j PA
    | VG => dotK u w * prop j PG
    | VZ => let i2 := (c_cw E * c_imW E) * (c_cw E * c_imW E) in (dotK u w - i2 * (dotK u k * dotK w k)) * prop j PZ
    | _ => let i2 := c_imW E * c_imW E in (dotK u w - i2 * (dotK u k * dotK w k)) * prop j PWp
    end.
  Definition exchange (j : nat) (k : vec K) (x y : fld K) : K :=
    match x, y with
    | Vct b u, Vct b' w => if vkind_eqb b' (antikind b) then vec_exchange j k b u w else zro
    | Sca s, Sca t => - ((s * t) * prop j Ph)
    | Psi f c, Bar g r => if flavour_eqb f g then line j k f r c else zro
    | Bar g r, Psi f c => if flavour_eqb f g then line j (vnegK k) f r c else zro
    | _, _ => zro
    end.
  Definition ksumK (l : list K) : K := fold_right (o_add O) zro l.
  Definition channel (j : nat) (k : vec K) (l l' : list (fld K)) : K :=
    ksumK (flat_map (fun x => map (fun y => exchange j k x y) l') l).

  (** ** Four bosons at a vertex *)
  Definition quartic (a b c d : vec K) : K := two * (dotK a b * dotK c d) - (dotK b c * dotK a d + dotK c a * dotK b d).
  Definition fields {A} (f : fld K -> option A) (l : list (fld K)) : list A :=
    flat_map (fun x => match f x with Some y => [y] | None => [] end) l.
  Definition of_kind (b : vkind) (x : fld K) : option (vec K) := match x with Vct b' v => if vkind_eqb b b' then Some v else None | _ => None end.
  Definition of_sca (x : fld K) : option K := match x with Sca s => Some s | _ => None end.
  Definition contact (l : list (fld K)) : K :=
    let iss := c_isw E * c_isw E in
    match fields (of_kind VWp) l, fields (of_kind VWm) l, fields (of_kind VZ) l, fields (of_kind VA) l, fields of_sca l with
    | [a; b], [c; d], [], [], [] => iss * quartic a b c d
    | [a], [b], [z; z'], [], [] => - (((c_cw E * c_cw E) * iss) * quartic a b z z')
    | [a], [b], [z], [g], [] => - ((c_cw E * c_isw E) * quartic a b g z)
    | [a], [b], [], [g; g'], [] => - quartic a b g g'
    | [a], [b], [], [], [s; s'] => (c_half E * iss) * (dotK a b * (s * s'))
    | [], [], [z; z'], [], [s; s'] => ((c_half E * iss) * (c_icw E * c_icw E)) * (dotK z z' * (s * s'))
    | [], [], [], [], [s; s'; t; t'] =>
        - (((o_Z O 3%Z * (c_half E * c_half E)) * ((iss * (c_mh E * c_mh E)) * (c_imW E * c_imW E))) * ((s * s') * (t * t')))
    | _, _, _, _, _ => zro
    end.

  (** ** The amplitude, in units of e^2 (e gs with a gluon) and up to a phase
      Channels: 0 is legs 0 1, 1 is legs 0 2, 2 is legs 0 3. *)
  Definition tree (w : nat -> fld K * vec K) : K :=
    let ch j a b c d := channel j (vaddK (snd (w a)) (snd (w b))) (pair (w a) (w b)) (pair (w c) (w d)) in
    (ch 0%nat 0%nat 1%nat 2%nat 3%nat + ch 1%nat 0%nat 2%nat 1%nat 3%nat) +
    (ch 2%nat 0%nat 3%nat 1%nat 2%nat + contact [fst (w 0%nat); fst (w 1%nat); fst (w 2%nat); fst (w 3%nat)]).

  (** ** Outer particles *)
  Definition momK (l : kleg K) : vec K :=
    let x := k_x l * k_x l in let y := k_y l * k_y l in let c := k_c l * k_c l in let s := k_s l * k_s l in
    let t := (x - y) * (k_c l * k_s l) in Vec (x * c + y * s) (x * s + y * c) t t.
  (** the spinors u ([h]: helicity +1/2) and, with [anti], v ([h]: helicity -1/2) *)
  Definition spinorK (anti : bool) (l : kleg K) (h : bool) : dir K :=
    let a := if h then k_y l else k_x l in let b := if h then k_x l else k_y l in let a := if anti then - a else a in
    let c := if h then k_c l else - k_s l in let s := if h then k_s l else k_c l in
    Dir (a * c) (a * s) (b * c) (b * s).
  (** the row: bar of the (real) column *)
  Definition barK (s : dir K) : dir K := Dir (d_r0 s) (d_r1 s) (d_l0 s) (d_l1 s).
  (** helicities 1, -1, 0 *)
  Definition polK (l : kleg K) (h : Z) : vec K :=
    let c := k_c l in let s := k_s l in
    if Z.eqb h 0 then
      let x := k_x l * k_x l in let y := k_y l * k_y l in let t := (x + y) * (c * s) in
      vscal (k_im l) (Vec (x * (c * c) - y * (s * s)) (x * (s * s) - y * (c * c)) t t)
    else if Z.ltb 0 h then vscal (c_sq2 E) (Vec (c * s) (- (c * s)) (s * s) (- (c * c)))
    else vscal (c_sq2 E) (Vec (- (c * s)) (c * s) (c * c) (- (s * s))).
  Definition conjK (v : vec K) : vec K := Vec (v_p v) (v_m v) (v_b v) (v_t v).
  (** the wave function of a particle of type [t], going out or coming in, with spin state h *)
  Definition waveK (t : ptype) (out : bool) (l : kleg K) (h : Z) : fld K :=
    let v := let v := polK l h in if out then conjK v else v in
    match t with
    | PA => Vct VA v | PG => Vct VG v | PZ => Vct VZ v
    | PWp => Vct (if out then VWm else VWp) v | PWm => Vct (if out then VWp else VWm) v
    | Ph => Sca one
    | Pf f => let u := spinorK false l (Z.ltb 0 h) in if out then Bar f (barK u) else Psi f u
    | Pa f => let u := spinorK true l (Z.ltb 0 h) in if out then Psi f u else Bar f (barK u)
    end.
  Definition comes (out : bool) (k : vec K) : vec K := if out then vnegK k else k.
  Variable leg : nat -> kleg K.
  Definition outer (ts : nat -> ptype) (h : nat -> Z) (k : nat) : fld K * vec K :=
    let out := (2 <=? k)%nat in (waveK (ts k) out (leg k) (h k), comes out (momK (leg k))).
  Definition amplitudeK (ts : nat -> ptype) (h : nat -> Z) : K := tree (outer ts h).
End Rules.

(** ** What is exchanged: channels and particles *)
Definition exchanged {K} (x y : fld K) : list ptype :=
  match x, y with
  | Vct b _, Vct b' _ => if vkind_eqb b' (antikind b) then [match b with VA => PA | VG => PG | VZ => PZ | VWp | VWm => PWp end] else []
  | Sca _, Sca _ => [Ph]
  | Psi f _, Bar g _ | Bar g _, Psi f _ => if flavour_eqb f g then [Pf f] else []
  | _, _ => [] end.
Definition poles (ts : nat -> ptype) : list (nat * ptype) :=
  let O := mkOps unit (fun _ => tt) (fun _ _ => tt) (fun _ _ => tt) (fun _ => tt) in
  let E := mkConsts unit tt tt tt tt tt tt tt tt tt tt (fun _ => tt) in
  let w := outer O E (fun _ => mkKleg tt tt tt tt tt) ts (fun _ => 0%Z) in
  let ch j a b c d := map (fun t => (j, t)) (flat_map (fun x => flat_map (exchanged x) (pair O E (w c) (w d))) (pair O E (w a) (w b))) in
  ch 0 0 1 2 3 ++ ch 1 0 2 1 3 ++ ch 2 0 3 1 2.

(** ** The complex numbers *)
Open Scope R_scope.
Definition CO : ops C := mkOps C (fun z => RtoC (IZR z)) Cplus Cmult Copp.
Definition constsC (P : standard_model) : consts C :=
  mkConsts C (RtoC (/ 2)) (RtoC (/ 3)) (RtoC (sqrt 2)) (RtoC (sm_sw P)) (RtoC (/ sm_sw P)) (RtoC (sm_cw P)) (RtoC (/ sm_cw P))
    (RtoC (sm_mW P)) (RtoC (/ sm_mW P)) (RtoC (sm_mh P)) (fun f => RtoC (sm_mass P f)).
Definition pmass (P : standard_model) (t : ptype) : R :=
  match t with PA | PG => 0 | PZ => sm_mW P / sm_cw P | PWp | PWm => sm_mW P | Ph => sm_mh P | Pf f | Pa f => sm_mass P f end.
Definition pwidth (P : standard_model) (t : ptype) : R :=
  match t with PZ => sm_wZ P | PWp | PWm => sm_wW P | Ph => sm_wh P | _ => 0 end.
(** k^2 - m^2 - i m w *)
Definition tree_den (P : standard_model) (t : ptype) (k2 : R) : C := (k2 - pmass P t * pmass P t, - (pmass P t * pwidth P t)).

(** *** The centre of mass frame: the momenta of the initial and of the final particles, cos
    and sin of half the angle of scattering *)
Record frame : Type := mkFrame { f_in : R; f_out : R; f_c : R; f_s : R }.
Section Frame.
  Variable P : standard_model.
  Variable ts : nat -> ptype.
  Variable F : frame.
  Definition cm_p (k : nat) : R := if (k <? 2)%nat then f_in F else f_out F.
  Definition cm_energy (k : nat) : R := sqrt (pmass P (ts k) * pmass P (ts k) + cm_p k * cm_p k).
  (** cos and sin of half the polar angle; leg 2 goes to x > 0, leg 3 to x < 0 *)
  Definition cm_c (k : nat) : R := match k with 0%nat => 1 | 1%nat => 0 | 2%nat => f_c F | _ => f_s F end.
  Definition cm_s (k : nat) : R := match k with 0%nat => 0 | 1%nat => 1 | 2%nat => f_s F | _ => - f_c F end.
  Definition cm_mom (k mu : nat) : R :=
    match mu with 0%nat => cm_energy k | 1%nat => cm_p k * (2 * cm_c k * cm_s k) | 2%nat => 0 | _ => cm_p k * (cm_c k * cm_c k - cm_s k * cm_s k) end.
  Definition cm_leg (k : nat) : kleg C :=
    mkKleg (RtoC (sqrt (cm_energy k + cm_p k))) (RtoC (sqrt (cm_energy k - cm_p k))) (RtoC (cm_c k)) (RtoC (cm_s k))
      (RtoC (match ts k with PZ | PWp | PWm => / pmass P (ts k) | _ => 0 end)).
  (** s, t and u *)
  Definition invariant (j : nat) : R := square4 (transfer cm_mom 0 (S j)).
  Definition with_gluon : bool := existsb (fun k => match ts k with PG => true | _ => false end) (seq 0 4).
  (** [h k] is twice the helicity of leg k, for antifermions minus that *)
  Definition feynman_tree (h : nat -> Z) : C :=
    Cmult (RtoC (sm_e P * (if with_gluon then sm_gs P else sm_e P)))
      (amplitudeK CO (constsC P) (fun j t => Cinv (tree_den P t (invariant j))) cm_leg ts h).
  Definition helicities (t : ptype) : list Z :=
    match t with
    | PA | PG => [-2; 2] | PZ | PWp | PWm => [-2; 0; 2] | Ph => [0]
    | Pf f | Pa f => if is_neutrino f then [-1] else [-1; 1] end%Z.
  Definition colour_states (t : ptype) : nat :=
    match t with PG => 8 | Pf f | Pa f => if is_quark f then 3 else 1 | _ => 1 end%nat.
  Definition ptype_eqb (t t' : ptype) : bool :=
    match t, t' with
    | PA, PA | PG, PG | PZ, PZ | PWp, PWp | PWm, PWm | Ph, Ph => true
    | Pf f, Pf g | Pa f, Pa g => flavour_eqb f g | _, _ => false end.
  (** states of the initial particles, and 2 for identical final ones *)
  Definition initial_states : nat :=
    (length (helicities (ts 0)) * length (helicities (ts 1)) * colour_states (ts 0) * colour_states (ts 1) * (if ptype_eqb (ts 2) (ts 3) then 2 else 1))%nat.
  (** the sum over the colours: 1 without quarks, 3 for a quark line, trace T^a T^a = 4 if it has
      an outer gluon *)
  Definition colour_sum : R :=
    if with_gluon then 4 else if existsb (fun k => match ts k with Pf f | Pa f => is_quark f | _ => false end) (seq 0 4) then 3 else 1.
  Definition feynman_tree2 : R :=
    colour_sum * / INR initial_states *
    rsum (fun h => Cmod (feynman_tree (fun k => nth k h 0%Z)) ^ 2) (cart (map (fun k => helicities (ts k)) (seq 0 4))).
End Frame.

(** *** The wave functions are what they should be *)
Section Waves.
  Open Scope C_scope.
  Variables x y c s : C.
  Hypothesis Hcs : c * c + s * s = RtoC 1.
  Let l (i : C) : kleg C := mkKleg x y c s i.
  Let m : C := x * y.
  Ltac unit := match goal with |- _ = ?r => transitivity (r * (c * c + s * s)); [ring|rewrite Hcs; ring] end.
  Ltac comps := cbn [k_x k_y k_c k_s k_im d_l0 d_l1 d_r0 d_r1 v_p v_m v_t v_b o_add o_mul o_neg o_Z c_sq2 c_half].
  (** the Dirac equation *)
  Lemma wave_dirac anti h i : slashK CO (momK CO (l i)) (spinorK CO anti (l i) h) = dscal CO (if anti then - m else m) (spinorK CO anti (l i) h).
  Proof. unfold slashK, dscal, spinorK, momK, CO, m, l. destruct anti, h; comps; f_equal; unit. Qed.
  (** the sum over the spins *)
  Lemma wave_complete anti i w :
    daddK CO (dscal CO (rc CO (barK (spinorK CO anti (l i) true)) w) (spinorK CO anti (l i) true))
             (dscal CO (rc CO (barK (spinorK CO anti (l i) false)) w) (spinorK CO anti (l i) false)) =
    daddK CO (slashK CO (momK CO (l i)) w) (dscal CO (if anti then - m else m) w).
  Proof.
    unfold daddK, slashK, dscal, rc, barK, spinorK, momK, CO, m, l. destruct w as [w0 w1 w2 w3].
    destruct anti; comps; f_equal;
      (match goal with |- _ = ?a + ?b => transitivity (a + b * (c * c + s * s)); [ring|rewrite Hcs; ring] end).
  Qed.
  (** polarisations: transverse, normalised, complete *)
  Variable i : C.
  Hypothesis Him : i * m = RtoC 1.
  Variable P : standard_model.
  Let pol (h : Z) : vec C := polK CO (constsC P) (l i) h.
  Lemma rt2_sq : RtoC (sqrt 2) * RtoC (sqrt 2) = RtoC 1 + RtoC 1.
  Proof. rewrite <- RtoC_mult, <- RtoC_plus, sqrt_sqrt by lra. reflexivity. Qed.
  Lemma wave_transverse h : dot2 CO (momK CO (l i)) (pol h) = RtoC 0.
  Proof.
    unfold pol, polK, dot2, momK, vscal, CO, constsC, l. destruct (Z.eqb h 0); [|destruct (Z.ltb 0 h)]; comps; try ring.
  Qed.
  Lemma wave_normal h : dot2 CO (pol h) (conjK (pol h)) = - (RtoC 1 + RtoC 1).
  Proof.
    unfold pol, polK, dot2, conjK, vscal, CO, constsC, l. destruct (Z.eqb h 0); [|destruct (Z.ltb 0 h)]; comps.
    - transitivity (- ((RtoC 1 + RtoC 1) * ((i * m) * (i * m)) * ((c * c + s * s) * (c * c + s * s)))); [unfold m; ring|rewrite Hcs, Him; ring].
    - transitivity (- ((RtoC (sqrt 2) * RtoC (sqrt 2)) * ((c * c + s * s) * (c * c + s * s)))); [ring|rewrite Hcs, rt2_sq; ring].
    - transitivity (- ((RtoC (sqrt 2) * RtoC (sqrt 2)) * ((c * c + s * s) * (c * c + s * s)))); [ring|rewrite Hcs, rt2_sq; ring].
  Qed.
  Lemma wave_orthogonal : dot2 CO (pol 1) (conjK (pol (-1))) = RtoC 0 /\ dot2 CO (pol 1) (conjK (pol 0)) = RtoC 0 /\ dot2 CO (pol (-1)) (conjK (pol 0)) = RtoC 0.
  Proof. unfold pol, polK, dot2, conjK, vscal, CO, constsC, l. cbn [Z.eqb Z.ltb Z.compare]. comps. repeat split; ring. Qed.
End Waves.
