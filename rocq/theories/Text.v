(** * Text output of vectors and matrices (source/cvector.cpp 125-151, source/cmatrix.cpp 202-225)

    [shw x] is the text operator<< writes for an ldouble on a new std::stringstream (the
    formatting done by the standard library, at the default precision of six digits). *)
From Coq Require Import String.
From Verif Require Import Base Scalar Linear.
Open Scope string_scope.

Section Text.
  Context {num : Num}.
  Variable shw : T num -> string.

  (** operator<< of std::complex ([complex.ops]): "(re,im)" *)
  Definition shwc (z : CX num) : string := "(" ++ shw (cre z) ++ "," ++ shw (cim z) ++ ")".
  (** std::arg *)
  Definition carg (z : CX num) : T num := tatan2 (cim z) (cre z).

  (** cvector::to_string(const int&): source/cvector.cpp 126-131 *)
  Definition cvector_to_string_which (which : Z) (v : cvector num) : string :=
    if Z.eqb which 1 then "{ " ++ shwc (cv0 v) ++ " , " ++ shwc (cv1 v) ++ " }"
    else "{ " ++ shw (cabs (cv0 v)) ++ " exp(i * " ++ shw (carg (cv0 v)) ++ " ) , " ++
         shw (cabs (cv1 v)) ++ " exp(i * " ++ shw (carg (cv1 v)) ++ " ) }".
  (** cvector::to_string(): source/cvector.cpp 132-136 *)
  Definition cvector_to_string (v : cvector num) : string :=
    "{ " ++ shwc (cv0 v) ++ " , " ++ shwc (cv1 v) ++ " }".
  (** operator<<(ostream&, const cvector&): source/cvector.cpp 138-141.  [out] is what the
      stream holds already. *)
  Definition cvector_print (out : string) (v : cvector num) : string := out ++ cvector_to_string v.
  (** cvector::to_Mathematica_string: source/cvector.cpp 144-151 *)
  Definition cvector_to_Mathematica_string (v : cvector num) : string :=
    "{ " ++ shw (cre (cv0 v)) ++ " + I * " ++ shw (cim (cv0 v)) ++
    " , " ++ shw (cre (cv1 v)) ++ " + I * " ++ shw (cim (cv1 v)) ++ " }".

  (** cmatrix::to_string: source/cmatrix.cpp 203-210 *)
  Definition cmatrix_to_string (m : cmatrix num) : string :=
    "{ { " ++ shw (cre (m00 m)) ++ " + I* " ++ shw (cim (m00 m)) ++
    " , " ++ shw (cre (m01 m)) ++ " + I* " ++ shw (cim (m01 m)) ++
    " } , { " ++ shw (cre (m10 m)) ++ " + I* " ++ shw (cim (m10 m)) ++
    " , " ++ shw (cre (m11 m)) ++ " + I* " ++ shw (cim (m11 m)) ++ " } }".
  (** operator<<(ostream&, const cmatrix&): source/cmatrix.cpp 212-215 *)
  Definition cmatrix_print (out : string) (m : cmatrix num) : string := out ++ cmatrix_to_string m.
  (** cmatrix::to_Mathematica_string: source/cmatrix.cpp 218-225 *)
  Definition cmatrix_to_Mathematica_string (m : cmatrix num) : string :=
    "{ { " ++ shw (cre (m00 m)) ++ " + I* " ++ shw (cim (m00 m)) ++
    " , " ++ shw (cre (m01 m)) ++ " + I* " ++ shw (cim (m01 m)) ++
    " } , { " ++ shw (cre (m10 m)) ++ " + I* " ++ shw (cim (m10 m)) ++
    " , " ++ shw (cre (m11 m)) ++ " + I* " ++ shw (cim (m11 m)) ++ " } }".
End Text.
