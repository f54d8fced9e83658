(** * Amplitudes as polynomials in spinor products

    Definitions behind C47, used in proofs only: the term (Sym.v) that an amplitude evaluates
    to, as a polynomial in the spinor products of the legs, with coefficients in which the
    momenta enter through Lorentz invariants alone. *)
From Coq Require Import QArith String Ascii Lia.
From Verif Require Import Base Scalar Linear Integers Particle Sproduct Propagator Process Lang Pure
  Sym SymEq SMNames SMRun SMTwins SMMasses SMAll SMChecks SMAmp2 SpinColour Poly.
Close Scope Q_scope.
Open Scope nat_scope.

(** ** Variables *)
Inductive var : Type :=
| VS (n : positive)                         (* the n-th coefficient *)
| VZ (p : nat) (up : bool)                  (* auxiliary variables of leg p *)
| VC (angle : bool) (sL : option bool) (L : nat) (ds : list nat) (sR : option bool) (R : nat).   (* a spinor product *)

Definition enc_leg (p : nat) (x : positive) : positive :=
  match p with 0 => xO (xO x) | 1 => xO (xI x) | 2 => xI (xO x) | _ => xI (xI x) end.
Definition enc_lab (s : option bool) (x : positive) : positive :=
  match s with None => xO x | Some true => xI (xI x) | Some false => xI (xO x) end.
Fixpoint enc_ds (ds : list nat) (x : positive) : positive :=
  match ds with [] => xO x | p :: l => xI (enc_leg p (enc_ds l x)) end.
Definition enc (v : var) : positive :=
  match v with
  | VS n => xO (xO n)
  | VZ p up => xO (xI (enc_leg p (if up then 3 else 2)%positive))
  | VC angle sL L ds sR R =>
      let x := enc_leg L (enc_lab sL (enc_leg R (enc_lab sR (enc_ds ds 1)))) in xI (if angle then xI x else xO x)
  end.
Definition dec_leg (x : positive) : option (nat * positive) :=
  match x with xO (xO x) => Some (0, x) | xO (xI x) => Some (1, x) | xI (xO x) => Some (2, x) | xI (xI x) => Some (3, x) | _ => None end.
Definition dec_lab (x : positive) : option (option bool * positive) :=
  match x with xO x => Some (None, x) | xI (xI x) => Some (Some true, x) | xI (xO x) => Some (Some false, x) | _ => None end.
Fixpoint dec_ds (x : positive) : option (list nat) :=
  match x with
  | xO x => Some []
  | xI (xO (xO x)) => match dec_ds x with Some l => Some (0 :: l) | None => None end
  | xI (xO (xI x)) => match dec_ds x with Some l => Some (1 :: l) | None => None end
  | xI (xI (xO x)) => match dec_ds x with Some l => Some (2 :: l) | None => None end
  | xI (xI (xI x)) => match dec_ds x with Some l => Some (3 :: l) | None => None end
  | _ => None
  end.
Definition dec (x : positive) : option var :=
  match x with
  | xO (xO n) => Some (VS n)
  | xO (xI x) => match dec_leg x with Some (p, xI xH) => Some (VZ p true) | Some (p, xO xH) => Some (VZ p false) | _ => None end
  | xI x =>
      let '(angle, x) := match x with xI x => (true, x) | xO x => (false, x) | xH => (false, xH) end in
      match dec_leg x with
      | Some (L, x) =>
        match dec_lab x with
        | Some (sL, x) =>
          match dec_leg x with
          | Some (R, x) =>
            match dec_lab x with
            | Some (sR, x) => match dec_ds x with Some ds => Some (VC angle sL L ds sR R) | None => None end
            | None => None
            end
          | None => None
          end
        | None => None
        end
      | None => None
      end
  | _ => None
  end.
Lemma dec_enc_leg p x : p < 4 -> dec_leg (enc_leg p x) = Some (p, x).
Proof. intros H. destruct p as [|[|[|[|p]]]]; try reflexivity. lia. Qed.
Lemma dec_enc_lab s x : dec_lab (enc_lab s x) = Some (s, x).
Proof. destruct s as [[]|]; reflexivity. Qed.
Lemma dec_enc_ds x : forall ds, Forall (fun p => p < 4) ds -> dec_ds (enc_ds ds x) = Some ds.
Proof.
  induction 1 as [|p ds Hp _ IH]; [reflexivity|]. cbn [enc_ds].
  destruct p as [|[|[|[|p]]]]; cbn [enc_leg dec_ds]; rewrite ?IH; try reflexivity.
  lia.
Qed.
Definition small (v : var) : Prop :=
  match v with VS _ => True | VZ p _ => p < 4 | VC _ _ L ds _ R => L < 4 /\ R < 4 /\ Forall (fun p => p < 4) ds end.
Lemma dec_enc v : small v -> dec (enc v) = Some v.
Proof.
  destruct v as [n|p up|angle sL L ds sR R]; cbn [small]; intros H; [reflexivity| |].
  - destruct p as [|[|[|[|p]]]]; destruct up; try reflexivity; lia.
  - destruct H as (HL & HR & HD). unfold enc, dec. destruct angle; cbn [fst snd];
      rewrite (dec_enc_leg L _ HL), dec_enc_lab, (dec_enc_leg R _ HR), dec_enc_lab, (dec_enc_ds _ ds HD); reflexivity.
Qed.

(** ** Invariant coefficients *)
(** a sum of leg momenta, component mu: how often every leg occurs *)
Definition four : Type := (Z * Z * Z * Z)%type.
Definition four_op (f : Z -> Z -> Z) (a b : four) : four :=
  let '(a0, a1, a2, a3) := a in let '(b0, b1, b2, b3) := b in (f a0 b0, f a1 b1, f a2 b2, f a3 b3).
Definition unit4 (p : nat) : option four :=
  match p with 0 => Some (1, 0, 0, 0)%Z | 1 => Some (0, 1, 0, 0)%Z | 2 => Some (0, 0, 1, 0)%Z | 3 => Some (0, 0, 0, 1)%Z | _ => None end.
Fixpoint momenta_in (mu : nat) (t : sT) : option four :=
  match t with
  | TAt (AMom p nu) => if Nat.eqb mu nu then unit4 p else None
  | TOp Add x y => match momenta_in mu x, momenta_in mu y with Some a, Some b => Some (four_op Z.add a b) | _, _ => None end
  | TOp Sub x y => match momenta_in mu x, momenta_in mu y with Some a, Some b => Some (four_op Z.sub a b) | _, _ => None end
  | TNeg x => match momenta_in mu x with Some a => Some (four_op (fun u v => (v - u)%Z) a (0, 0, 0, 0)%Z) | None => None end
  | _ => None
  end.
Definition four_eqb (a b : four) : bool :=
  let '(a0, a1, a2, a3) := a in let '(b0, b1, b2, b3) := b in Z.eqb a0 b0 && Z.eqb a1 b1 && Z.eqb a2 b2 && Z.eqb a3 b3.
Definition same4 (f : four) (x : option four) : bool := match x with Some g => four_eqb f g | None => false end.
(** the square of such a sum *)
Definition square_of (t : sT) : bool :=
  match t with
  | TOp Sub (TOp Sub (TOp Sub (TOp Mul a0 b0) (TOp Mul a1 b1)) (TOp Mul a2 b2)) (TOp Mul a3 b3) =>
      match momenta_in 0 a0 with
      | Some f => same4 f (momenta_in 1 a1) && same4 f (momenta_in 2 a2) && same4 f (momenta_in 3 a3) &&
                  same4 f (momenta_in 0 b0) && same4 f (momenta_in 1 b1) && same4 f (momenta_in 2 b2) && same4 f (momenta_in 3 b3)
      | None => false
      end
  | _ => false
  end.
Fixpoint invT (t : sT) : bool :=
  if square_of t then true else
  match t with
  | TInt _ | TofD _ => true
  | TOp _ x y => if invT x then invT y else false
  | TNeg x | TSqr x | TPw x => invT x
  | TAt (AMem _) | TAt (APm _) | TAt (APw _) | TAt (AMass _) => true
  | TRe x => invC x
  | _ => false
  end
with invC (x : sC) : bool :=
  match x with
  | CMk x y => if invT x then invT y else false
  | COp _ x y => if invC x then invC y else false
  | CNeg x | CCj x => invC x
  | CCT _ x y => if invC x then invT y else false
  | CTC _ x y => if invT x then invC y else false
  | _ => false
  end.

(** ** The polynomial of a term *)
Inductive coef : Type := KT (t : sT) | KTinv (t : sT) | KC (x : sC) | KCinv (x : sC).
Definition invK (a : coef) : bool := match a with KT t | KTinv t => invT t | KC x | KCinv x => invC x end.
Definition coef_eqb (a b : coef) : bool :=
  match a, b with KT x, KT y | KTinv x, KTinv y => eqT x y | KC x, KC y | KCinv x, KCinv y => eqC x y | _, _ => false end.
Fixpoint find_coef (a : coef) (tab : list coef) (n : positive) : option positive :=
  match tab with [] => None | b :: l => if coef_eqb a b then Some n else find_coef a l (Pos.succ n) end.

Definition leg_of (d : sdat) : option nat :=
  match d with
  | SDat (TAt (AMass p)) (TAt (AMom p0 0)) (TAt (AMom p1 1)) (TAt (AMom p2 2)) (TAt (AMom p3 3)) =>
      if Nat.eqb p p0 && Nat.eqb p p1 && Nat.eqb p p2 && Nat.eqb p p3 && (p <? 4) then Some p else None
  | _ => None
  end.
Fixpoint legs_in (ds : sdats) : option (list nat) :=
  match ds with
  | SNil => Some []
  | SCons d ds' => match leg_of d, legs_in ds' with Some p, Some l => Some (p :: l) | _, _ => None end
  end.
Definition lab (s : option Z) : option (option bool) :=
  match s with None => Some None | Some 1 => Some (Some true) | Some (-1) => Some (Some false) | _ => None end%Z.

Definition oadd (p q : option poly) : option poly := match p, q with Some a, Some b => Some (padd a b) | _, _ => None end.
Definition omulp (p q : option poly) : option poly := match p, q with Some a, Some b => Some (pmul a b) | _, _ => None end.
Definition oneg (p : option poly) : option poly := match p with Some a => Some (pneg a) | None => None end.

(** the spinors of a massless particle take no spin, those of a massive one do *)
Definition suits (pat : nat -> bool) (a : option bool) (p : nat) : bool :=
  match a with Some _ => negb (pat p) | None => pat p end.
Section Norm.
  Variable pat : nat -> bool.
  Variable tab : list coef.
  Variable leaf : bool -> option bool -> nat -> list nat -> option bool -> nat -> poly.
  Definition atomic (a : coef) : option poly :=
    match find_coef a tab 1 with Some n => Some (pmono [enc (VS n)]) | None => None end.
  Fixpoint normT (t : sT) : option poly :=
    match t with
    | TInt 0 => Some []
    | TInt 1 => Some pone
    | TOp Mul x y => omulp (normT x) (normT y)
    | TOp Div x y => if invT y then omulp (normT x) (atomic (KTinv y)) else None
    | TNeg x => oneg (normT x)
    | _ => if invT t then atomic (KT t) else None
    end.
  Fixpoint norm (x : sC) : option poly :=
    match x with
    | CProd angle sL dL ds sR dR =>
        match lab sL, leg_of dL, legs_in ds, lab sR, leg_of dR with
        | Some a, Some L, Some l, Some b, Some R => if suits pat a L then if suits pat b R then Some (leaf angle a L l b R) else None else None
        | _, _, _, _, _ => None
        end
    | CMk (TInt 0) (TInt 0) => Some []
    | COp Add x y => oadd (norm x) (norm y)
    | COp Sub x y => oadd (norm x) (oneg (norm y))
    | COp Mul x y => omulp (norm x) (norm y)
    | COp Div x y => if invC y then omulp (norm x) (atomic (KCinv y)) else None
    | CNeg x => oneg (norm x)
    | CCT Mul x y => omulp (norm x) (normT y)
    | CCT Div x y => if invT y then omulp (norm x) (atomic (KTinv y)) else None
    | CTC Mul x y => omulp (normT x) (norm y)
    | _ => if invC x then atomic (KC x) else None
    end.
End Norm.
(** the coefficients a term needs *)
Fixpoint coefsT (t : sT) : list coef :=
  match t with
  | TInt 0 | TInt 1 => []
  | TOp Mul x y => coefsT x ++ coefsT y
  | TOp Div x y => coefsT x ++ [KTinv y]
  | TNeg x => coefsT x
  | _ => [KT t]
  end.
Fixpoint coefs (x : sC) : list coef :=
  match x with
  | CProd _ _ _ _ _ _ | CMk (TInt 0) (TInt 0) => []
  | COp Div x y => coefs x ++ [KCinv y]
  | COp _ x y => coefs x ++ coefs y
  | CNeg x => coefs x
  | CCT Mul x y => coefs x ++ coefsT y
  | CCT Div x y => coefs x ++ [KTinv y]
  | CTC Mul x y => coefsT x ++ coefs y
  | _ => [KC x]
  end.
Fixpoint dedup (l : list coef) (tab : list coef) : list coef :=
  match l with
  | [] => tab
  | a :: l' => dedup l' (match find_coef a tab 1 with Some _ => tab | None => tab ++ [a] end)
  end.
Definition root2 : sT := TofD (DSqr (DLit 2)).
Definition table (y : sC) : list coef := dedup (coefs y) [KTinv root2].

(** the product itself, the product without its spins, and its expansion in the spins *)
Definition leaf_v angle a L ds b R : poly := pmono [enc (VC angle a L ds b R)].
Definition up (a : option bool) : option bool := match a with Some _ => Some true | None => None end.
Definition leaf_u angle (a : option bool) L ds (b : option bool) R : poly := pmono [enc (VC angle (up a) L ds (up b) R)].
Definition spread (L : nat) (a : option bool) : list (mono * option bool) :=
  match a with Some _ => [([enc (VZ L true)], Some true); ([enc (VZ L false)], Some false)] | None => [([], None)] end.
Definition leaf_z angle (a : option bool) L ds (b : option bool) R : poly :=
  flat_map (fun x => map (fun y => (1%Z, mmerge (fst x) (mmerge (fst y) [enc (VC angle (snd x) L ds (snd y) R)]))) (spread R b)) (spread L a).

(** ** The check *)
Inductive lkind : Type := Lhalf | Lone | Lfixed (ss : list (list Z)).
Definition lkinds (c : cls) (pol : list Z) : list lkind :=
  map (fun sa => if one_of "hnAg" (snd sa) then Lfixed (fst sa) else if one_of "WZ" (snd sa) then Lone else Lhalf)
    (combine (polarised pol (legs c)) (legs c)).
(** the choices for the legs of fixed helicity, with the largest spin for the others; and
    the spins for one of them *)
Definition tops (ks : list lkind) : list (list (list Z)) :=
  cart (map (fun k => match k with Lhalf => [[1]] | Lone => [[2]] | Lfixed ss => ss end%Z) ks).
Fixpoint spins (ks : list lkind) (top : list (list Z)) : list (list (list Z)) :=
  match ks, top with
  | k :: ks', s :: top' =>
      flat_map (fun x => map (cons x) (spins ks' top'))
        (match k with Lhalf => [[-1]; [1]] | Lone => [[-2]; [0]; [2]] | Lfixed _ => [s] end%Z)
  | _, _ => [[]]
  end.
Fixpoint zmono (p : nat) (ks : list lkind) (s : list (list Z)) : mono :=
  match ks, s with
  | Lhalf :: ks', [z] :: s' => mmerge [enc (VZ p (Z.eqb z 1))] (zmono (S p) ks' s')
  | Lone :: ks', [z] :: s' => mmerge [enc (VZ p (Z.ltb 0 z))] (mmerge [enc (VZ p (Z.leb 0 z))] (zmono (S p) ks' s'))
  | Lfixed _ :: ks', _ :: s' => zmono (S p) ks' s'
  | _, _ => []
  end.
Fixpoint zeros (ks : list lkind) (s : list (list Z)) : nat :=
  match ks, s with
  | Lone :: ks', [z] :: s' => (if Z.eqb z 0 then 1 else 0) + zeros ks' s'
  | _ :: ks', _ :: s' => zeros ks' s'
  | _, _ => 0
  end.
(** how a monomial scales with the spinors of the massless legs *)
Definition wt_end (angle : bool) (a : option bool) (p q : nat) : Z :=
  match a with None => if Nat.eqb p q then if angle then 1 else -1 else 0 | Some _ => 0 end%Z.
Definition weight_of (q : nat) (x : positive) : Z :=
  match dec x with
  | Some (VC angle a L ds b R) => wt_end angle a L q + wt_end (Bool.eqb angle (Nat.even (length ds))) b R q
  | _ => 0
  end%Z.
Definition mweight (q : nat) (m : mono) : Z := fold_right (fun x k => weight_of q x + k)%Z 0%Z m.
Definition weights (m : mono) : four := (mweight 0 m, mweight 1 m, mweight 2 m, mweight 3 m).
Definition uniform (w : four) (p : poly) : bool := forallb (fun t => four_eqb (weights (snd t)) w) p.

(** The arguments of the amplitude: the spins in the order of the legs, but for nWWn, whose
    amp takes that of leg 3 first (SM/nWWn.cpp 97). *)
Definition order (c : cls) (s : list (list Z)) : list Z :=
  if String.eqb (c_name c) "nWWn" then rev (concat s) else concat s.
Definition amp_at (c : cls) (pat : nat -> bool) (b1 : pobj snum) (m : id) (s : list (list Z)) : option sC :=
  match pinner (Qj pat) c b1 m (order c s) with POk y => Some y | _ => None end.
Fixpoint total (c : cls) pat b1 (m : id) (tab : list coef) (ks : list lkind) (ss : list (list (list Z))) : option poly :=
  match ss with
  | [] => Some []
  | s :: ss' =>
      match amp_at c pat b1 m s with
      | Some y =>
          match norm pat tab leaf_v y with
          | Some p => match strip (zeros ks s) (enc (VS 1)) p with
                      | Some p' => oadd (Some (tmul (1%Z, zmono 0 ks s) p')) (total c pat b1 m tab ks ss')
                      | None => None
                      end
          | None => None
          end
      | None => None
      end
  end.
Definition poly_ok (a : option poly) (b : option poly) : bool :=
  match a, b with Some p, Some q => same p q | _, _ => false end.
(** [w] is the scaling *)
Definition covar (c : cls) pat b1 (ks : list lkind) (top : list (list Z)) (w : four) (m : id) : bool :=
  match amp_at c pat b1 m top with
  | Some y =>
      let tab := table y in
      if negb (forallb invK tab) then false else
      match norm pat tab leaf_u y with
      | Some p => if uniform w p then poly_ok (total c pat b1 m tab ks (spins ks top)) (norm pat tab leaf_z y) else false
      | None => false
      end
  | None => false
  end.
(** the scaling of the first monomial there is *)
Fixpoint first_weight (c : cls) pat b1 (top : list (list Z)) (ms : list id) : four :=
  match ms with
  | [] => (0, 0, 0, 0)%Z
  | m :: ms' =>
      match amp_at c pat b1 m top with
      | Some y => match norm pat (table y) leaf_u y with Some (t :: _) => weights (snd t) | _ => first_weight c pat b1 top ms' end
      | None => (0, 0, 0, 0)%Z
      end
  end.
Definition covar_all (c : cls) (pol : list Z) (ms : list id) : bool :=
  match shape c with
  | POk b =>
      forallb (fun pat => if fits c pat then
        match after c (dyn_mask c) b pat with
        | POk (None, b1) =>
            forallb (fun top => let w := first_weight c pat b1 top ms in
              forallb (covar c pat b1 (lkinds c pol) top w) ms) (tops (lkinds c pol))
        | _ => false
        end else true) all_pats
  | _ => false
  end.
(** the spins of the legs are those of SpinColour.v, and their order does not matter *)
Definition klist (k : lkind) : list (list Z) :=
  match k with Lhalf => [[-1]; [1]] | Lone => [[-2]; [0]; [2]] | Lfixed ss => ss end%Z.
Fixpoint zss_eqb (a b : list (list Z)) : bool :=
  match a, b with [], [] => true | x :: a', y :: b' => if zs_eqb x y then zss_eqb a' b' else false | _, _ => false end.
Fixpoint zsss_eqb (a b : list (list (list Z))) : bool :=
  match a, b with [], [] => true | x :: a', y :: b' => if zss_eqb x y then zsss_eqb a' b' else false | _, _ => false end.
Fixpoint take_zs (x : list Z) (l : list (list Z)) : option (list (list Z)) :=
  match l with
  | [] => None
  | y :: l' => if zs_eqb x y then Some l' else match take_zs x l' with Some r => Some (y :: r) | None => None end
  end.
Fixpoint shuffled (l l' : list (list Z)) : bool :=
  match l with
  | [] => match l' with [] => true | _ => false end
  | x :: r => match take_zs x l' with Some r' => shuffled r r' | None => false end
  end.
Definition spins_ok (c : cls) (pol : list Z) : bool :=
  let ks := map klist (lkinds c pol) in
  if (if Nat.eqb (length ks) 4 then zsss_eqb ks (polarised pol (legs c)) else false) then shuffled (map (order c) (cart ks)) (configs c pol) else false.
Definition covariant (c : cls) (v : id * list Z) (ms : list id) : bool :=
  match find_meth c (fst v) with
  | None => true
  | Some _ => if spins_ok c (snd v) then covar_all c (snd v) ms else false
  end.
