(** * Outer bosons: both sides of C57 as polynomials

    Used in proofs only.  In the centre of mass frame, with the half angles and the square roots
    of E + p and E - p as variables, the amplitude of a class and the one of the Feynman rules
    become polynomials in the variables below; these are compared. *)
From Coq Require Import ZArith QArith List Bool String Ascii.
From Verif Require Import Base Scalar Lang Pure Sym SymEq SMNames SMRun SMTwins SMMasses SMAll SMChecks SMAmp2 SpinColour Covariant
  PropsWidth Feynman FeynmanFlat FeynmanTable BosonSpec Tower.
Import ListNotations.
Close Scope Q_scope.
Open Scope nat_scope.

(** ** Evaluation of terms *)
Section Eval.
  Variable M : tow -> tow -> tow.
  Variable zero : tow -> bool.
  Definition same (p q : tow) : bool := zero (wsub p q).
  (** values with their inverses; numbers that are not negative *)
  Variable invs : list (tow * tow).
  Variable roots : list tow.
  Definition inverse (p : option tow) : option tow :=
    match p with Some p => match find (fun d => same p (fst d)) invs with Some d => Some (snd d) | None => None end | None => None end.
  Definition root (p : option tow) : option tow := match p with Some p => find (fun r => same p (M r r)) roots | None => None end.
  Definition both (f : tow -> tow -> tow) (p q : option tow) : option tow := match p, q with Some p, Some q => Some (f p q) | _, _ => None end.
  (** a value and its inverse *)
  Definition vi : Type := (option tow * option tow)%type.
  Definition plain (p : option tow) : vi := (p, inverse p).
  Definition arith (a : aop) (x y : vi) : vi :=
    match a with
    | Add => plain (both wadd (fst x) (fst y))
    | Sub => plain (both wsub (fst x) (fst y))
    | Mul => (both M (fst x) (fst y), both M (snd x) (snd y))
    | Div => (both M (fst x) (snd y), both M (snd x) (fst y))
    end.
  Definition oneg1 (p : option tow) : option tow := match p with Some p => Some (wneg p) | None => None end.
  Definition negv (x : vi) : vi := (oneg1 (fst x), oneg1 (snd x)).
  Fixpoint evD (x : sD) : vi :=
    match x with
    | DLit (Qmake n 1) => plain (Some (WL n))
    | DLit (Qmake n d) => arith Div (plain (Some (WL n))) (plain (Some (WL (Zpos d))))
    | DOp a x y => arith a (evD x) (evD y)
    | DNeg x => negv (evD x)
    | DSqr x => plain (root (fst (evD x)))
    end.
  Variable atom : tatom -> vi.
  Fixpoint evT (x : sT) : vi :=
    match x with
    | TInt z => plain (Some (WL z))
    | TofD d => evD d
    | TOp a x y => arith a (evT x) (evT y)
    | TNeg x => negv (evT x)
    | TSqr x => plain (root (fst (evT x)))
    | TPw x => let y := evT x in arith Mul y y
    | TAt k => atom k
    | _ => (None, None)
    end.

  (** *** Spinors *)
  Variable leg : nat -> kleg tow.
  Definition tw2 : Type := (tow * tow)%type.
  Definition rangle (k : nat) (s : option bool) : tw2 :=
    let l := leg k in
    match s with
    | Some true => (wneg (M (k_y l) (k_s l)), M (k_y l) (k_c l))
    | _ => (M (k_x l) (k_c l), M (k_x l) (k_s l)) end.
  Definition lsquare (k : nat) (s : option bool) : tw2 :=
    let l := leg k in
    match s with
    | Some false => (M (k_y l) (k_s l), wneg (M (k_y l) (k_c l)))
    | _ => (M (k_x l) (k_c l), M (k_x l) (k_s l)) end.
  Definition jP (v : tw2) : tw2 := (snd v, wneg (fst v)).
  Variable mats : nat -> vec tow.       (* the momenta *)
  Definition actP (lower : bool) (k : nat) (v : tw2) : tw2 :=
    let q := mats k in
    if lower then (wadd (M (v_p q) (fst v)) (M (v_b q) (snd v)), wadd (M (v_t q) (fst v)) (M (v_m q) (snd v)))
    else (wsub (M (v_m q) (fst v)) (M (v_b q) (snd v)), wsub (M (v_p q) (snd v)) (M (v_t q) (fst v))).
  Fixpoint apP (lower : bool) (ks : list nat) (v : tw2) : tw2 :=
    match ks with [] => v | k :: ks' => actP lower k (apP (negb lower) ks' v) end.
  Definition zchP (angle : bool) (sL : option bool) (kL : nat) (ks : list nat) (sR : option bool) (kR : nat) : tow :=
    let l := if angle then jP (rangle kL sL) else lsquare kL sL in
    let r := apP angle ks (if Bool.eqb angle (Nat.even (length ks)) then rangle kR sR else jP (lsquare kR sR)) in
    wadd (M (fst l) (fst r)) (M (snd l) (snd r)).

  (** *** Amplitudes *)
  Variable pat : nat -> bool.
  Variable ps : list id.
  Variable slot : id -> nat -> option tow.   (* propagators *)
  Definition over (y : sC) : option tow :=
    match denom ps y with
    | Some (t, (r, k)) => both M (snd (evT t)) (slot r k)
    | None => None end.
  Fixpoint evC (x : sC) : option tow :=
    match x with
    | CMk x y => match fst (evT y) with Some q => if zero q then fst (evT x) else None | None => None end
    | COp Add x y => both wadd (evC x) (evC y)
    | COp Sub x y => both wsub (evC x) (evC y)
    | COp Mul x y => both M (evC x) (evC y)
    | COp Div x y => both M (evC x) (over y)
    | CNeg x => oneg1 (evC x)
    | CCT Add x y => both wadd (evC x) (fst (evT y))
    | CCT Sub x y => both wsub (evC x) (fst (evT y))
    | CCT Mul x y => both M (evC x) (fst (evT y))
    | CCT Div x y => both M (evC x) (snd (evT y))
    | CTC Add x y => both wadd (fst (evT x)) (evC y)
    | CTC Sub x y => both wsub (fst (evT x)) (evC y)
    | CTC Mul x y => both M (fst (evT x)) (evC y)
    | CTC Div x y => both M (fst (evT x)) (over y)
    | CProd angle sL dL ds sR dR =>
        match lab sL, leg_of dL, legs_in ds, lab sR, leg_of dR with
        | Some a, Some l, Some ks, Some b, Some r => if suits pat a l then if suits pat b r then Some (zchP angle a l ks b r) else None else None
        | _, _, _, _, _ => None end
    | _ => None
    end.
End Eval.

(** ** The variables *)
Notation vE := v0. Notation vGS := v1. Notation vISW := v8. Notation vSW := v9. Notation vICW := v10. Notation vIMW := v11.
Notation vIMa := v12. Notation vIMb := v13. Notation vHalf := v14. Notation vThird := v15. Notation vQ := v16. Notation vS := v17.
Notation vC := v26. Notation vCW := v27. Notation vMW := v28. Notation vMH := v29. Notation vFM := v30. Notation vV := v31.
(** what a kinematical variable stands for: sqrt (E + p), sqrt (E - p) of a leg, quotients *)
Inductive qty : Type := QX (k : nat) | QY (k : nat) | QXX (k j : nat) | QYX (k j : nat) | QNone.
Record kin : Type := Kin { n_x : nat -> tow; n_y : nat -> tow; n_18 : option tow; n_19 : option tow; n_20 : option tow; n_21 : option tow; n_q : lv -> qty }.
Definition of4 {A} (a b c d : A) (k : nat) : A := match k with 0 => a | 1 => b | 2 => c | _ => d end.
(** squares of variables, products *)
Definition sq (l : lv) : tow := WN l (WL 0) (wvar l).
Definition w0 (z : bool) (p : tow) : tow := if z then WL 0 else p.
Definition mono (l l' : lv) : tow := WN l (WL 0) (wvar l').            (* l before l' *)
Definition mono4 (l l' : lv) : tow := WN l (WL 0) (WN l (WL 0) (sq l')).
Inductive kid : Type := Ka | Kb | Kc | Kd | Ke | Kf | Kg | Ka00b | K0a0b | K0aba | K0aab | Ka0ab | Kabac | Kabbc.
(** [z k]: leg k is massless *)
Definition kin_of (i : kid) (z : nat -> bool) : kin :=
  let z0 := z 0 in let z1 := z 1 in let z2 := z 2 in let z3 := z 3 in
  match i with
  | Kd => let x := wvar v22 in let y := w0 z0 (wvar v23) in
      Kin (of4 x x x x) (of4 y y y y) None None None None
        (fun l => match l with v22 => QX 0 | v23 => QY 0 | _ => QNone end)
  | Ka => let y := w0 z0 (wvar v23) in let y2 := w0 z2 (wvar v24) in
      Kin (of4 (wvar v22) (wvar v22) (wvar v18) (wvar v18)) (of4 y y y2 y2)
        (Some (wsub (wadd (sq v22) (w0 z0 (sq v23))) (w0 z2 (sq v24)))) None None None
        (fun l => match l with v18 => QX 2 | v22 => QX 0 | v23 => QY 0 | v24 => QY 2 | _ => QNone end)
  | Kb => let y := w0 z0 (wvar v23) in let y1 := w0 z1 (wvar v24) in
      Kin (of4 (wvar v22) (wvar v18) (wvar v22) (wvar v18)) (of4 y y1 y y1)
        (Some (wsub (wadd (sq v22) (w0 z1 (sq v24))) (w0 z0 (sq v23)))) None None None
        (fun l => match l with v18 => QX 1 | v22 => QX 0 | v23 => QY 0 | v24 => QY 1 | _ => QNone end)
  | Kc => let y := w0 z0 (wvar v23) in let y1 := w0 z1 (wvar v24) in
      Kin (of4 (wvar v22) (wvar v18) (wvar v18) (wvar v22)) (of4 y y1 y1 y)
        (Some (wsub (wadd (sq v22) (w0 z1 (sq v24))) (w0 z0 (sq v23)))) None None None
        (fun l => match l with v18 => QX 1 | v22 => QX 0 | v23 => QY 0 | v24 => QY 1 | _ => QNone end)
  | Ke => let y := w0 z0 (wvar v23) in let W := wadd (sq v22) (w0 z0 (sq v23)) in
      Kin (of4 (wvar v22) (wvar v22) (wvar v18) (wvar v19)) (of4 y y (w0 z2 (wvar v24)) (w0 z3 (wvar v25)))
        (Some (wsub W (w0 z3 (sq v25)))) (Some (wsub W (w0 z2 (sq v24)))) None None
        (fun l => match l with v18 => QX 2 | v19 => QX 3 | v22 => QX 0 | v23 => QY 0 | v24 => QY 2 | v25 => QY 3 | _ => QNone end)
  | Kf => let y := w0 z2 (wvar v23) in let W := wadd (sq v22) (w0 z2 (sq v23)) in
      Kin (of4 (wvar v18) (wvar v19) (wvar v22) (wvar v22)) (of4 (w0 z0 (wvar v24)) (w0 z1 (wvar v25)) y y)
        (Some (wsub W (w0 z1 (sq v25)))) (Some (wsub W (w0 z0 (sq v24)))) None None
        (fun l => match l with v18 => QX 0 | v19 => QX 1 | v22 => QX 2 | v23 => QY 2 | v24 => QY 0 | v25 => QY 1 | _ => QNone end)
  | Kg => let W := wadd (sq v21) (w0 z1 (sq v23)) in
      Kin (of4 (wvar v21) (wvar v18) (wvar v19) (wvar v20)) (of4 (w0 z0 (wvar v22)) (w0 z1 (wvar v23)) (w0 z2 (wvar v24)) (w0 z3 (wvar v25)))
        (Some (wsub W (w0 z0 (sq v22)))) (Some (wsub W (w0 z3 (sq v25)))) (Some (wsub W (w0 z2 (sq v24)))) None
        (fun l => match l with v18 => QX 1 | v19 => QX 2 | v20 => QX 3 | v21 => QX 0 | v22 => QY 0 | v23 => QY 1 | v24 => QY 2 | v25 => QY 3 | _ => QNone end)
  | Ka00b =>
      Kin (of4 (wvar v22) (wvar v18) (wvar v19) (wvar v22)) (of4 (wvar v23) (WL 0) (WL 0) (wvar v24))
        (Some (wsub (sq v22) (sq v23))) (Some (wsub (sq v22) (sq v24))) None None
        (fun l => match l with v18 => QX 1 | v19 => QX 2 | v22 => QX 0 | v23 => QY 0 | v24 => QY 3 | _ => QNone end)
  | K0a0b =>
      Kin (of4 (wvar v18) (wvar v22) (wvar v19) (wvar v22)) (of4 (WL 0) (wvar v23) (WL 0) (wvar v24))
        (Some (wsub (sq v22) (sq v23))) (Some (wsub (sq v22) (sq v24))) None None
        (fun l => match l with v18 => QX 0 | v19 => QX 2 | v22 => QX 1 | v23 => QY 1 | v24 => QY 3 | _ => QNone end)
  | K0aba =>
      Kin (of4 (wvar v18) (wvar v22) (wvar v19) (mono v22 v25)) (of4 (WL 0) (mono v24 v25) (mono v21 v22) (wvar v24))
        (Some (wsub (sq v22) (mono4 v24 v25))) (Some (wsub (sq v22) (sq v24))) None (Some (wsub (WL 1) (sq v25)))
        (fun l => match l with v18 => QX 0 | v19 => QX 2 | v21 => QYX 2 1 | v22 => QX 1 | v24 => QY 3 | v25 => QXX 3 1 | _ => QNone end)
  | K0aab =>
      Kin (of4 (wvar v18) (wvar v22) (mono v22 v25) (wvar v19)) (of4 (WL 0) (mono v24 v25) (wvar v24) (mono v21 v22))
        (Some (wsub (sq v22) (mono4 v24 v25))) (Some (wsub (sq v22) (sq v24))) None (Some (wsub (WL 1) (sq v25)))
        (fun l => match l with v18 => QX 0 | v19 => QX 3 | v21 => QYX 3 1 | v22 => QX 1 | v24 => QY 2 | v25 => QXX 2 1 | _ => QNone end)
  | Ka0ab =>
      Kin (of4 (wvar v22) (wvar v18) (mono v22 v25) (wvar v19)) (of4 (mono v24 v25) (WL 0) (wvar v24) (mono v21 v22))
        (Some (wsub (sq v22) (mono4 v24 v25))) (Some (wsub (sq v22) (sq v24))) None (Some (wsub (WL 1) (sq v25)))
        (fun l => match l with v18 => QX 1 | v19 => QX 3 | v21 => QYX 3 0 | v22 => QX 0 | v24 => QY 2 | v25 => QXX 2 0 | _ => QNone end)
  | Kabac => let W := wadd (sq v22) (sq v23) in
      Kin (of4 (wvar v22) (wvar v18) (mono v22 v25) (wvar v19)) (of4 (mono v24 v25) (wvar v23) (wvar v24) (wvar v20))
        (Some (wsub W (mono4 v24 v25))) (Some (wsub W (sq v24))) (Some (wsub W (mono4 v22 v25))) None
        (fun l => match l with v18 => QX 1 | v19 => QX 3 | v20 => QY 3 | v22 => QX 0 | v23 => QY 1 | v24 => QY 2 | v25 => QXX 2 0 | _ => QNone end)
  | Kabbc => let W := wadd (sq v22) (sq v23) in
      Kin (of4 (wvar v18) (wvar v22) (mono v22 v25) (wvar v19)) (of4 (wvar v23) (mono v24 v25) (wvar v24) (wvar v20))
        (Some (wsub W (mono4 v24 v25))) (Some (wsub W (sq v24))) (Some (wsub W (mono4 v22 v25))) None
        (fun l => match l with v18 => QX 0 | v19 => QX 3 | v20 => QY 3 | v22 => QX 1 | v23 => QY 0 | v24 => QY 2 | v25 => QXX 2 1 | _ => QNone end)
  end.

(** ** A class with its outer particles *)
Inductive mtag : Type := M0 | MtW | MtZ | Mth | Mtf (f : flavour).
Definition tag_of (t : ptype) : mtag :=
  match t with PA | PG => M0 | PZ => MtZ | PWp | PWm => MtW | Ph => Mth | Pf f | Pa f => if is_neutrino f then M0 else Mtf f end.
Definition mtag_eqb (a b : mtag) : bool :=
  match a, b with M0, M0 | MtW, MtW | MtZ, MtZ | Mth, Mth => true | Mtf f, Mtf g => flavour_eqb f g | _, _ => false end.
Record bentry : Type := BEntry {
  b_cls : cls; b_legs : list ptype; b_kin : kid;
  b_zero : list id;         (* masses that must be 0 *)
  b_rev : bool;             (* amp takes the spins in the opposite order *)
  b_flips : list bool;      (* which labels the code has the other way round *)
  b_signs : string;
  b_narrow : bool }.        (* the widths must be 0 *)
Definition ts (e : bentry) (k : nat) : ptype := nth k (b_legs e) PA.
Definition has (c : cls) (x : id) : bool := match index x (c_params c) with Some _ => true | None => false end.
(** a width that is a parameter and may be any number *)
Definition free_width (e : bentry) (x : id) : option id := if b_narrow e then None else if has (b_cls e) x then Some x else None.
Definition tag_eqb (a b : option id) : bool := match a, b with Some x, Some y => Pos.eqb x y | None, None => true | _, _ => false end.
Definition width_tag (e : bentry) (t : ptype) : option id :=
  match t with PZ => free_width e n_widthZ | PWp | PWm => free_width e n_widthW | Ph => free_width e n_widthh | _ => None end.
Definition find_leg (e : bentry) (t : mtag) : option nat := find (fun k => mtag_eqb (tag_of (ts e k)) t) [0; 1; 2; 3].
(** the parameter with the mass of a fermion *)
Definition mass_name (c : cls) (f : flavour) : option id :=
  match f with
  | Fe => Some n_masse
  | Fu => Some (if has c n_massf then n_massf else n_massu) | Fd => Some (if has c n_massf then n_massf else n_massd)
  | Fm => Some n_massmu | Fl => Some n_masstau | Fc => Some n_massc | Ft => Some n_masst | Fs => Some n_masss | Fb => Some n_massb
  | _ => None end.

(** the classes with a weak angle and mW: those that take them and those that take v = 2 mW sw / e *)
Definition weakly (c : cls) : bool := has c n_sinW || has c n_vev.

Record setup : Type := Setup {
  u_r9 : option tow; u_r18 : option tow; u_r19 : option tow; u_r20 : option tow; u_r21 : option tow;
  u_i8 : option tow; u_i10 : option tow; u_i11 : option tow; u_i12 : option tow; u_i13 : option tow;
  u_slots : list (lv * (nat * (tow * option id)));   (* channel, mass, width *)
  u_E : consts tow;
  u_leg0 : kleg tow; u_leg1 : kleg tow; u_leg2 : kleg tow; u_leg3 : kleg tow; u_vev : bool }.
Definition r17 : option tow := Some (wsub (WL 1) (sq vC)).
Definition rule (s : setup) (l : lv) : option tow :=
  match l with
  | vSW => u_r9 s | vQ => Some (WL 2) | vS => r17 | v18 => u_r18 s | v19 => u_r19 s | v20 => u_r20 s | v21 => u_r21 s | _ => None end.
Definition Mu (s : setup) : tow -> tow -> tow := wmul (rule s) wfuel.
Definition PO (s : setup) : ops tow := mkOps tow WL wadd (Mu s) wneg.
Definition legP (s : setup) (k : nat) : kleg tow := match k with 0 => u_leg0 s | 1 => u_leg1 s | 2 => u_leg2 s | _ => u_leg3 s end.
Definition massP (l : kleg tow) : tow := wmul (fun _ => None) wfuel (k_x l) (k_y l).
(** the square of the momentum in a channel *)
Definition invP (s : setup) (j : nat) : tow :=
  let k0 := momK (PO s) (u_leg0 s) in let l := legP s (S j) in let k := momK (PO s) l in
  let m0 := massP (u_leg0 s) in let m := massP l in
  let d := dot2 (PO s) k0 k in
  wadd (wadd (Mu s m0 m0) (Mu s m m)) (match j with 0 => d | _ => wneg d end).
Definition slot_den (s : setup) (l : lv) : option tow :=
  match find (fun x => match lcmp (fst x) l with Eq => true | _ => false end) (u_slots s) with
  | Some (_, (j, (m, None))) => Some (wsub (invP s j) (Mu s m m)) | _ => None end.
Record dens : Type := Dens { d_2 : option tow; d_3 : option tow; d_4 : option tow; d_5 : option tow; d_6 : option tow; d_7 : option tow }.
Definition dens_of (s : setup) : dens :=
  Dens (slot_den s v2) (slot_den s v3) (slot_den s v4) (slot_den s v5) (slot_den s v6) (slot_den s v7).
Definition inv (s : setup) (d : dens) (l : lv) : option tow :=
  match l with
  | v2 => d_2 d | v3 => d_3 d | v4 => d_4 d | v5 => d_5 d | v6 => d_6 d | v7 => d_7 d
  | vISW => u_i8 s | vICW => u_i10 s | vIMW => u_i11 s | vIMa => u_i12 s | vIMb => u_i13 s
  | vHalf => Some (WL 2) | vThird => Some (WL 3) | _ => None end.
Definition Zu (s : setup) (d : dens) : tow -> bool := wzt (Mu s) (inv s d) 1000.

Definition kin_rule (n : kin) (l : lv) : option tow := match l with v18 => n_18 n | v19 => n_19 n | v20 => n_20 n | v21 => n_21 n | _ => None end.
(** the setup of a class, without propagators *)
Definition setup0 (e : bentry) : setup :=
  let c := b_cls e in
  let n := kin_of (b_kin e) (fun k => mtag_eqb (tag_of (ts e k)) M0) in
  let m k := wmul (fun _ => None) wfuel (n_x n k) (n_y n k) in
  let times := wmul (fun _ => None) wfuel in
  let weak := weakly c in
  let fw := find_leg e MtW in let fz := find_leg e MtZ in
  let mW := match fw, fz with Some a, _ => m a | None, Some b => times (wvar vCW) (m b) | _, _ => wvar vMW end in
  let imW := match fw, fz with Some _, _ => wvar vIMa | None, Some _ => times (wvar vICW) (wvar vIMb) | _, _ => wvar vIMW end in
  let cw := match fw, fz with Some a, Some b => times (m a) (wvar vIMb) | _, _ => wvar vCW end in
  let icw := match fw, fz with Some a, Some b => times (m b) (wvar vIMa) | _, _ => wvar vICW end in
  let w (x : tow) := if weak then x else WL 0 in
  let im k := match tag_of (ts e k) with MtW => wvar vIMa | MtZ => wvar vIMb | _ => WL 0 end in
  let mh := match find_leg e Mth with Some k => m k | None => if has c n_massh then wvar vMH else WL 0 end in
  let fm f := match mass_name c f with
              | Some x => if existsb (Pos.eqb x) (b_zero e) then WL 0
                          else if has c x then match find_leg e (Mtf f) with Some k => m k | None => if existsb (Pos.eqb n_massf) [x] then WL 0 else wvar vFM end else WL 0
              | None => WL 0 end in
  let k c s j := mkKleg (n_x n j) (n_y n j) c s (im j) in
  Setup (if weak then Some (wsub (WL 1) (wmul (kin_rule n) wfuel cw cw)) else None) (n_18 n) (n_19 n) (n_20 n) (n_21 n)
    (if weak then Some (wvar vSW) else None) (if weak then Some (wvar vCW) else None) (if weak then Some (wvar vMW) else None)
    (match fw with Some a => Some (m a) | None => None end) (match fz with Some b => Some (m b) | None => None end) []
    (mkConsts tow (wvar vHalf) (wvar vThird) (wvar vQ) (w (wvar vSW)) (w (wvar vISW)) (if weak then cw else WL 1) (if weak then icw else WL 1) (w mW) (w imW) mh fm)
    (k (WL 1) (WL 0) 0) (k (WL 0) (WL 1) 1) (k (wvar vC) (wvar vS) 2) (k (wvar vS) (wneg (wvar vC)) 3) (has c n_vev).

(** the parameters of the constructor *)
Definition parP (e : bentry) (s : setup) (x : id) : option tow :=
  let c := b_cls e in
  if existsb (Pos.eqb x) (b_zero e) then Some (WL 0)
  else if Pos.eqb x n_echarge then Some (wvar vE) else if Pos.eqb x n_gscharge then if has c n_gcharge then None else Some (wvar vGS)
  else if Pos.eqb x n_gcharge then Some (wvar vGS)
  else if Pos.eqb x n_sinW then Some (c_sw (u_E s)) else if Pos.eqb x n_massW then Some (c_mW (u_E s)) else if Pos.eqb x n_massh then Some (c_mh (u_E s))
  else if Pos.eqb x n_masse then Some (c_fm (u_E s) Fe) else if Pos.eqb x n_massu then Some (c_fm (u_E s) Fu)
  else if Pos.eqb x n_massd then Some (c_fm (u_E s) Fd)
  else if Pos.eqb x n_massf then Some (c_fm (u_E s) (match find_leg e (Mtf Fu) with Some _ => Fu | None => Fd end))
  else if Pos.eqb x n_widthW || Pos.eqb x n_widthZ || Pos.eqb x n_widthh then (if b_narrow e then Some (WL 0) else None)
  else if Pos.eqb x n_vev then Some (wvar vV) else None.

(** numbers with known inverses, numbers that are not negative *)
Definition invs_of (s : setup) : list (tow * tow) :=
  let E := u_E s in let M := Mu s in let h := wvar vHalf in let t := wvar vThird in
  [(WL 1, WL 1); (WL 2, h); (WL 3, t); (WL 4, M h h); (WL 6, M h t); (WL 8, M h (M h h)); (wvar vQ, M h (wvar vQ))] ++
  (match u_i8 s with Some _ => [(c_sw E, c_isw E); (c_cw E, c_icw E); (c_mW E, c_imW E); (M (c_mW E) (c_icw E), M (c_cw E) (c_imW E))] | None => [] end) ++
  (if u_vev s then [(wvar vV, M (wvar vE) (M h (M (c_isw E) (c_imW E))))] else []).
Definition roots_of (s : setup) : list tow := let E := u_E s in [wvar vQ; c_cw E].

Section Class.
  Variable e : bentry.
  Notation c := (b_cls e).
  Variable s : setup.
  Variable d : dens.
  Notation M := (Mu s). Notation Z := (Zu s d).
  Definition ev_par : sT -> vi := evT M Z (invs_of s) (roots_of s)
    (fun a => match a with APar k => plain Z (invs_of s) (match nth_error (c_params c) k with Some x => parP e s x | None => None end) | _ => (None, None) end).
  (** members, with their values *)
  Definition members (b : pobj snum) : list (id * vi) :=
    flat_map (fun x => let m := fst x in if known (dyn_mask c) b m then match b_T b m with Some y => [(m, ev_par y)] | None => [] end else []) (c_members c).
  Fixpoint lookup {A} (l : list (id * A)) (x : id) : option A :=
    match l with [] => None | (y, a) :: l' => if Pos.eqb x y then Some a else lookup l' x end.
  (** the width of a propagator *)
  Definition width_of (y : sT) : option (option id) :=
    match match y with TAt (APar k) => match nth_error (c_params c) k with Some x => free_width e x | None => None end | _ => None end with
    | Some x => Some (Some x)
    | None => match fst (ev_par y) with Some w => if Z w then Some None else None | None => None end end.
  Definition props_of : option (list (id * (tow * option id))) :=
    match rprops_of c with
    | Some l => all_some (fun x => match fst (ev_par (fst (snd x))), width_of (snd (snd x)) with
                                   | Some m, Some w => Some (fst x, (m, w)) | _, _ => None end) l
    | None => None end.
  Definition atom_of (tab : list (id * vi)) (a : tatom) : vi :=
    match a with
    | AMem m => match lookup tab m with Some v => v | None => (None, None) end
    | AMass p => plain Z (invs_of s) (if p <? 4 then Some (massP (legP s p)) else None)
    | _ => (None, None) end.
  Definition find_slot (j : nat) (y : tow * option id) : option tow :=
    match find (fun x => if Nat.eqb j (fst (snd x)) && tag_eqb (snd y) (snd (snd (snd x))) then same Z (fst y) (fst (snd (snd x))) else false) (u_slots s) with Some x => Some (wvar (fst x)) | None => None end.
  Definition prop_slot (pt : list (id * (tow * option id))) (r : id) (j : nat) : option tow :=
    match lookup pt r with Some y => find_slot j y | None => None end.
  Definition ev_code (tab : list (id * vi)) (pt : list (id * (tow * option id))) (y : sC) : option tow :=
    evC M Z (invs_of s) (roots_of s) (atom_of tab) (legP s) (fun k => momK (PO s) (legP s k)) (thepat c) (props c) (prop_slot pt) y.
  (** the other side *)
  Definition mass_of (t : ptype) : tow :=
    let E := u_E s in
    match t with PA | PG => WL 0 | PZ => M (c_mW E) (c_icw E) | PWp | PWm => c_mW E | Ph => c_mh E | Pf f | Pa f => c_fm E f end.
  Definition propP (j : nat) (t : ptype) : tow :=
    let m := mass_of t in match find_slot j (m, width_tag e t) with Some x => x | None => WR (wsub (invP s j) (M m m)) end.
  Definition spec_slots : bool :=
    forallb (fun jt => match width_tag e (snd jt) with
                       | Some _ => match find_slot (fst jt) (mass_of (snd jt), width_tag e (snd jt)) with Some _ => true | None => false end
                       | None => true end) (poles (ts e)).
  Definition ev_spec (h : nat -> BinNums.Z) : tow :=
    M (M (wvar vE) (if existsb (fun t => match t with PG => true | _ => false end) (b_legs e) then wvar vGS else wvar vE))
      (amplitudeK (PO s) (u_E s) propP (legP s) (ts e) h).
End Class.

(** the spins of all legs from those that amp takes *)
Fixpoint spread (l : list ptype) (fl : list bool) (z : list BinNums.Z) : list BinNums.Z :=
  match l, fl with
  | t :: l', f :: fl' =>
      match t with
      | Ph => 0%Z :: spread l' fl' z
      | Pf n | Pa n => if is_neutrino n then (-1)%Z :: spread l' fl' z
                       else match z with x :: z' => (if f then Z.opp x else x) :: spread l' fl' z' | [] => [] end
      | _ => match z with x :: z' => (if f then Z.opp x else x) :: spread l' fl' z' | [] => [] end
      end
  | _, _ => [] end.
Definition spins_of (e : bentry) (z : list BinNums.Z) : list BinNums.Z := spread (b_legs e) (b_flips e) (if b_rev e then rev z else z).
Definition hel (l : list BinNums.Z) (k : nat) : BinNums.Z := nth k l 0%Z.

(** slots for the propagators that occur *)
Definition slot_names : list lv := [v2; v3; v4; v5; v6; v7].
Definition dens_in (e : bentry) (b1 : pobj snum) : list (id * nat) :=
  flat_map (fun m => match b_C b1 (fst m) with Some y => match denom (props (b_cls e)) y with Some (_, d) => [d] | None => [] end | None => [] end) (c_members (b_cls e)).
Definition with_slots (s : setup) (l : list (lv * (nat * (tow * option id)))) : setup :=
  Setup (u_r9 s) (u_r18 s) (u_r19 s) (u_r20 s) (u_r21 s) (u_i8 s) (u_i10 s) (u_i11 s) (u_i12 s) (u_i13 s) l (u_E s) (u_leg0 s) (u_leg1 s) (u_leg2 s) (u_leg3 s) (u_vev s).
Definition no_dens : dens := Dens None None None None None None.
Fixpoint dedup2 (s : setup) (l : list (nat * (tow * option id))) : list (nat * (tow * option id)) :=
  match l with
  | [] => []
  | x :: l' => let k := dedup2 s l' in
               if existsb (fun y => if Nat.eqb (fst x) (fst y) && tag_eqb (snd (snd x)) (snd (snd y)) then same (Zu s no_dens) (fst (snd x)) (fst (snd y)) else false) k then k else x :: k end.
(** the propagators of the Feynman rules *)
Definition pole_ok (e : bentry) (s : setup) (x : nat * (tow * option id)) : bool :=
  if fst x <? 3 then
    existsb (fun jt => if Nat.eqb (fst jt) (fst x) && tag_eqb (snd (snd x)) (width_tag e (snd jt)) then same (Zu s no_dens) (fst (snd x)) (mass_of s (snd jt)) else false) (poles (ts e))
  else false.
Definition slots_for (e : bentry) (s : setup) (pt : list (id * (tow * option id))) (b1 : pobj snum) : list (lv * (nat * (tow * option id))) :=
  combine slot_names (filter (pole_ok e s) (dedup2 s (flat_map (fun rk => match lookup pt (fst rk) with Some y => [(snd rk, y)] | None => [] end) (dens_in e b1)))).
Definition full_setup (e : bentry) (b1 : pobj snum) : option (setup * list (id * (tow * option id))) :=
  let s := setup0 e in
  match props_of e s no_dens with Some pt => Some (with_slots s (slots_for e s pt b1), pt) | None => None end.

Definition sign_at (e : bentry) (n : nat) : bool := match String.get n (b_signs e) with Some a => Ascii.eqb a "-" | None => false end.
Fixpoint agree_all (f : nat -> list BinNums.Z -> bool) (n : nat) (l : list (list BinNums.Z)) : bool :=
  match l with [] => true | z :: l' => if f n z then agree_all f (S n) l' else false end.
Definition amps_agree (e : bentry) : bool :=
  match shape (b_cls e) with
  | POk b =>
      match after (b_cls e) (dyn_mask (b_cls e)) b (thepat (b_cls e)) with
      | POk (None, b1) =>
          match full_setup e b1 with
          | Some (s, pt) =>
              let d := dens_of s in let tab := members e s d b in
              if spec_slots e s d then agree_all (fun n z =>
                match pinner (Qj (thepat (b_cls e))) (b_cls e) b1 n_amp z with
                | POk y => match ev_code e s d tab pt y with
                           | Some p => let q := ev_spec e s d (hel (spins_of e z)) in Zu s d (if sign_at e n then wadd p q else wsub p q)
                           | None => false end
                | _ => false end) 0 (configs (b_cls e) []) else false
          | None => false end
      | _ => false end
  | _ => false end.
