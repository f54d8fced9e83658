(** * IEEE arithmetic as an instance of [Num], with Flocq

    ldouble is a binary floating-point type with rounding to nearest even, either x87
    extended (prec 64, emax 16384: include/types.h 27) or double (prec 53, emax 1024:
    include/types.h 29).  double is binary64.  The transcendental functions of the C
    library are arbitrary.  Complex products and quotients are the textbook formulas
    (the library additionally repairs products of infinities, C Annex G); a double
    literal is the rounded quotient of its numerator and denominator.  Payloads and signs
    of NaN are not represented. *)
From Coq Require Import ZArith QArith.
From Flocq Require Import Core BinarySingleNaN.
From Verif Require Import Base Scalar.
Open Scope Z_scope.

(** The functions of the C library that IEEE 754 does not fix. *)
Record libm (F : Type) : Type := mkLibm {
  m_cos : F -> F; m_sin : F -> F; m_atan2 : F -> F -> F; m_hypot : F -> F -> F
}.
Arguments m_cos {F}. Arguments m_sin {F}. Arguments m_atan2 {F}. Arguments m_hypot {F}.

Section Ops.
  Variables prec emax : Z.
  Context (Hp : Prec_gt_0 prec) (He : Prec_lt_emax prec emax).
  Notation F := (binary_float prec emax).
  Definition fof (n : Z) : F := binary_normalize prec emax Hp He mode_NE n 0 false.
  Definition fadd : F -> F -> F := Bplus mode_NE.
  Definition fsub : F -> F -> F := Bminus mode_NE.
  Definition fmul : F -> F -> F := Bmult mode_NE.
  Definition fdiv : F -> F -> F := Bdiv mode_NE.
  Definition fsqrt : F -> F := Bsqrt mode_NE.
  Definition fopp : F -> F := Bopp.
  Definition fabs : F -> F := Babs.
  Definition feq : F -> F -> bool := Beqb.
  Definition fgt (x y : F) : bool := Bltb y x.
  Definition fge (x y : F) : bool := Bleb y x.
  Definition finf (x : F) : bool := match x with B754_infinity _ => true | _ => false end.
  Definition fnan (x : F) : bool := is_nan x.
  Definition fQ (q : Q) : F := fdiv (fof (Qnum q)) (fof (Zpos (Qden q))).
  (** 2^(1-prec) *)
  Definition feps : F := binary_normalize prec emax Hp He mode_NE 1 (1 - prec) false.
End Ops.
(** Conversion from double (exact for prec >= 53, emax >= 1024). *)
Definition fcvt prec emax (Hp : Prec_gt_0 prec) (He : Prec_lt_emax prec emax)
  (x : binary_float 53 1024) : binary_float prec emax :=
  match x with
  | B754_zero s => B754_zero s
  | B754_infinity s => B754_infinity s
  | B754_nan => B754_nan
  | B754_finite s m e _ => binary_normalize prec emax Hp He mode_NE (cond_Zopp s (Zpos m)) e s
  end.

Definition Hp53 : Prec_gt_0 53 := eq_refl.
Definition He53 : Prec_lt_emax 53 1024 := eq_refl.
Definition Hp64 : Prec_gt_0 64 := eq_refl.
Definition He64 : Prec_lt_emax 64 16384 := eq_refl.

(** The instance, for a given ldouble type and C library. *)
Definition FN (st : bool) (prec emax : Z) (Hp : Prec_gt_0 prec) (He : Prec_lt_emax prec emax)
  (lm : libm (binary_float prec emax)) : Num :=
  let F := binary_float prec emax in
  let add := fadd prec emax Hp He in let sub := fsub prec emax Hp He in
  let mul := fmul prec emax Hp He in let div := fdiv prec emax Hp He in
  let opp := fopp prec emax in
  let zero : F := B754_zero false in
  {| T := F; D := binary_float 53 1024; CX := (F * F)%type; strict := st;
     tZ := fof prec emax Hp He; tD := fcvt prec emax Hp He;
     tadd := add; tsub := sub; tmul := mul; tdiv := div; topp := opp;
     tsqrt := fsqrt prec emax Hp He; tabs := fabs prec emax;
     tcos := m_cos lm; tsin := m_sin lm; tatan2 := m_atan2 lm; tpow2 := fun x => mul x x;
     teqb := feq prec emax; tgtb := fgt prec emax; tgeb := fge prec emax;
     tisinf := finf prec emax; tisnan := fnan prec emax; teps := feps prec emax Hp He;
     dQ := fQ 53 1024 Hp53 He53; dadd := fadd 53 1024 Hp53 He53; dsub := fsub 53 1024 Hp53 He53;
     dmul := fmul 53 1024 Hp53 He53; ddiv := fdiv 53 1024 Hp53 He53; dopp := fopp 53 1024;
     dsqrt := fsqrt 53 1024 Hp53 He53;
     cmk := pair; cre := fst; cim := snd;
     cadd := fun z w => (add (fst z) (fst w), add (snd z) (snd w));
     csub := fun z w => (sub (fst z) (fst w), sub (snd z) (snd w));
     cmul := fun z w => (sub (mul (fst z) (fst w)) (mul (snd z) (snd w)),
                         add (mul (fst z) (snd w)) (mul (snd z) (fst w)));
     cdiv := fun z w =>
       let n := add (mul (fst w) (fst w)) (mul (snd w) (snd w)) in
       (div (add (mul (fst z) (fst w)) (mul (snd z) (snd w))) n,
        div (sub (mul (snd z) (fst w)) (mul (fst z) (snd w))) n);
     copp := fun z => (opp (fst z), opp (snd z));
     cconj := fun z => (fst z, opp (snd z));
     cabs := fun z => m_hypot lm (fst z) (snd z);
     caddt := fun z x => (add (fst z) x, snd z);
     csubt := fun z x => (sub (fst z) x, snd z);
     cmult := fun z x => (mul (fst z) x, mul (snd z) x);
     cdivt := fun z x => (div (fst z) x, div (snd z) x);
     taddc := fun x z => (add x (fst z), snd z);
     tsubc := fun x z => (sub x (fst z), opp (snd z));
     tmulc := fun x z => (mul x (fst z), mul x (snd z));
     tdivc := fun x w =>
       let n := add (mul (fst w) (fst w)) (mul (snd w) (snd w)) in
       (div (mul x (fst w)) n, div (opp (mul x (snd w))) n);
     cpolar := fun r t => (mul r (m_cos lm t), mul r (m_sin lm t)) |}.

(** The two builds of the library. *)
Definition LD (st : bool) (lm : libm (binary_float 64 16384)) : Num := FN st 64 16384 Hp64 He64 lm.
Definition DD (st : bool) (lm : libm (binary_float 53 1024)) : Num := FN st 53 1024 Hp53 He53 lm.
