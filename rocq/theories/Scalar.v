(** * The arithmetic the library is written against

    [ldouble], [double] and [cdouble = std::complex<ldouble>] (include/types.h 26-33)
    are abstract: a [Num] lists the carriers and every operation the sources call.
    No algebraic law is part of the record, so a theorem quantified over all [Num]
    holds for IEEE arithmetic with rounding, infinities and NaN.

    [Num] is an ordinary record, not a module type. *)
From Coq Require Import QArith.
From Verif Require Import Base.

Record Num : Type := mkNum {
  T  : Type;                       (* ldouble: include/types.h 27 / 29 *)
  D  : Type;                       (* double: type of floating literals such as 2.0 *)
  CX : Type;                       (* cdouble: include/types.h 33 *)

  (** true: the C++ abstract machine, undefined behaviour is an outcome of its own.
      false: what the usual compilers do instead: an indeterminate read gives some
      value, std::polar evaluates its formula for any magnitude. *)
  strict : bool;

  (* ldouble *)
  tZ    : Z -> T;                  (* conversion from int *)
  tD    : D -> T;                  (* conversion from double *)
  tadd  : T -> T -> T;
  tsub  : T -> T -> T;
  tmul  : T -> T -> T;
  tdiv  : T -> T -> T;
  topp  : T -> T;
  tsqrt : T -> T;                  (* std::sqrt *)
  tabs  : T -> T;                  (* std::abs *)
  tcos  : T -> T;                  (* std::cos *)
  tsin  : T -> T;                  (* std::sin *)
  tatan2 : T -> T -> T;            (* atan2(y,x) as called in source/particle.cpp 74-75 *)
  tpow2 : T -> T;                  (* std::pow(x,2) *)
  teqb  : T -> T -> bool;          (* x == y *)
  tgtb  : T -> T -> bool;          (* x > y  *)
  tgeb  : T -> T -> bool;          (* x >= y *)
  tisinf : T -> bool;              (* std::isinf *)
  tisnan : T -> bool;              (* std::isnan *)
  teps  : T;                       (* std::numeric_limits<ldouble>::epsilon() *)

  (* double *)
  dQ    : Q -> D;                  (* a floating literal *)
  dadd  : D -> D -> D;
  dsub  : D -> D -> D;
  dmul  : D -> D -> D;
  ddiv  : D -> D -> D;
  dopp  : D -> D;
  dsqrt : D -> D;                  (* std::sqrt(double), also std::sqrt(int) *)

  (* cdouble *)
  cmk   : T -> T -> CX;            (* cdouble(re,im) *)
  cre   : CX -> T;                 (* std::real *)
  cim   : CX -> T;                 (* std::imag *)
  cadd  : CX -> CX -> CX;
  csub  : CX -> CX -> CX;
  cmul  : CX -> CX -> CX;
  cdiv  : CX -> CX -> CX;
  copp  : CX -> CX;
  cconj : CX -> CX;                (* std::conj *)
  cabs  : CX -> T;                 (* std::abs *)
  caddt : CX -> T -> CX;           (* cdouble + ldouble *)
  csubt : CX -> T -> CX;
  cmult : CX -> T -> CX;           (* cdouble * ldouble *)
  cdivt : CX -> T -> CX;
  taddc : T -> CX -> CX;           (* ldouble + cdouble *)
  tsubc : T -> CX -> CX;
  tmulc : T -> CX -> CX;           (* ldouble * cdouble *)
  tdivc : T -> CX -> CX;
  cpolar : T -> T -> CX            (* the formula of std::polar(rho,theta) *)
}.

Arguments tZ {_} _%Z. Arguments tD {_}. Arguments tadd {_}. Arguments tsub {_}.
Arguments tmul {_}. Arguments tdiv {_}. Arguments topp {_}. Arguments tsqrt {_}.
Arguments tabs {_}. Arguments tcos {_}. Arguments tsin {_}. Arguments tatan2 {_}.
Arguments tpow2 {_}. Arguments teqb {_}. Arguments tgtb {_}. Arguments tgeb {_}.
Arguments tisinf {_}. Arguments tisnan {_}. Arguments teps {_}.
Arguments dQ {_} _%Q. Arguments dadd {_}. Arguments dsub {_}. Arguments dmul {_}.
Arguments ddiv {_}. Arguments dopp {_}. Arguments dsqrt {_}.
Arguments cmk {_}. Arguments cre {_}. Arguments cim {_}. Arguments cadd {_}.
Arguments csub {_}. Arguments cmul {_}. Arguments cdiv {_}. Arguments copp {_}.
Arguments cconj {_}. Arguments cabs {_}. Arguments caddt {_}. Arguments csubt {_}.
Arguments cmult {_}. Arguments cdivt {_}. Arguments taddc {_}. Arguments tsubc {_}.
Arguments tmulc {_}. Arguments tdivc {_}. Arguments cpolar {_}.

Declare Scope ld_scope.
Delimit Scope ld_scope with ld.
Notation "x + y" := (tadd x y) : ld_scope.
Notation "x - y" := (tsub x y) : ld_scope.
Notation "x * y" := (tmul x y) : ld_scope.
Notation "x / y" := (tdiv x y) : ld_scope.
Notation "- x" := (topp x) : ld_scope.
Notation "0" := (tZ 0) : ld_scope.
Notation "1" := (tZ 1) : ld_scope.
Notation "2" := (tZ 2) : ld_scope.

Declare Scope cx_scope.
Delimit Scope cx_scope with cx.
Notation "x + y" := (cadd x y) : cx_scope.
Notation "x - y" := (csub x y) : cx_scope.
Notation "x * y" := (cmul x y) : cx_scope.
Notation "- x" := (copp x) : cx_scope.

Section WithNum.
  Context {num : Num}.

  (** cdouble() : zero-initialised complex number (C++ [complex.members]). *)
  Definition c0 : CX num := cmk (tZ 0) (tZ 0).

  (** Implicit conversion ldouble -> cdouble. *)
  Definition cT (x : T num) : CX num := cmk x (tZ 0).

  (** A double literal used where an ldouble is expected. *)
  Definition lit (q : Q) : T num := tD (dQ q).

  (** std::polar(rho,theta).  [complex.value.ops]: the behaviour is undefined unless
      rho is non-negative and not NaN, i.e. unless rho >= 0. *)
  Definition polar (rho theta : T num) : outcome (CX num) :=
    if strict num
    then if tgeb rho (tZ 0) then Ok (cpolar rho theta) else UB NegativePolar
    else Ok (cpolar rho theta).

  (** A scalar member that may not have been initialised.  The payload of [Indet] is
      the bit pattern that happens to be there. *)
  Inductive cell : Type :=
  | Val (v : T num)
  | Indet (v : T num).

  Definition rd (c : cell) : outcome (T num) :=
    match c with
    | Val v => Ok v
    | Indet v => if strict num then UB ReadIndeterminate else Ok v
    end.

  (** A four-vector, C++ [ldouble p[4]]. *)
  Record vec4 (A : Type) : Type := V4 { v_0 : A; v_1 : A; v_2 : A; v_3 : A }.
End WithNum.

Arguments cell : clear implicits.
Arguments Val {num} v.
Arguments Indet {num} v.
Arguments V4 {A}. Arguments v_0 {A}. Arguments v_1 {A}. Arguments v_2 {A}. Arguments v_3 {A}.
Arguments vec4 : clear implicits.

Definition mom (num : Num) : Type := vec4 (T num).
