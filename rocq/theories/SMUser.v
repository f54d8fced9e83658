(** Generated by tools/translate.py from user-dir/eemm.cpp.  Do not edit. *)
From Coq Require Import QArith String.
From Verif Require Import Base Scalar Particle Sproduct Lang SMSyntax SMNames.
Local Open Scope sm_scope.
Local Open Scope string_scope.

(** eemm::eemm: user-dir/eemm.cpp 34-51 *)
Definition eemmQED2_ctor : stmt :=
(SMemT n_e (ELocT n_echarge);,
SMemT n_me (ELocT n_masse);,
SMemT n_mm (ELocT n_massmu);,
SPropNew n_prop (EUn I2T (EInt 0)) (EUn I2T (EInt 0));,
SParticle 0 (EMemT n_me);,
SParticle 1 (EMemT n_me);,
SParticle 2 (EMemT n_mm);,
SParticle 3 (EMemT n_mm);,
SSprod n_a13a true 0 [] 2;,
SSprod n_s13s false 0 [] 2;,
SSprod n_a14a true 0 [] 3;,
SSprod n_s14s false 0 [] 3;,
SSprod n_a23a true 1 [] 2;,
SSprod n_s23s false 1 [] 2;,
SSprod n_a24a true 1 [] 3;,
SSprod n_s24s false 1 [] 3).
(** eemm::set_masses: user-dir/eemm.cpp 53-60 *)
Definition eemmQED2_set_masses : meth := mkMeth n_set_masses [(n_masse, PkT); (n_massmu, PkT)]
(SMemT n_me (ELocT n_masse);,
SMemT n_mm (ELocT n_massmu);,
SSetMass 0 (EMemT n_me);,
SSetMass 1 (EMemT n_me);,
SSetMass 2 (EMemT n_mm);,
SSetMass 3 (EMemT n_mm)).
(** eemm::set_momenta: user-dir/eemm.cpp 62-81 *)
Definition eemmQED2_set_momenta : meth := mkMeth n_set_momenta [(n_mom1, PkMom); (n_mom2, PkMom); (n_mom3, PkMom); (n_mom4, PkMom)]
(SSetMomentum 0 n_mom1;,
SSetMomentum 1 n_mom2;,
SSetMomentum 2 n_mom3;,
SSetMomentum 3 n_mom4;,
SUpdate n_a13a;,
SUpdate n_s13s;,
SUpdate n_a14a;,
SUpdate n_s14s;,
SUpdate n_a23a;,
SUpdate n_s23s;,
SUpdate n_a24a;,
SUpdate n_s24s;,
SDeclT n_propP 4;,
(SFor n_j (EInt 0) (EBin (CmpI CLt) (ELocI n_j) (EInt 4)) (EBin (OpI IAdd) (ELocI n_j) (EInt 1))
(SArrT n_propP (AVar n_j) ((EArrT n_mom1 (AVar n_j)) +t (EArrT n_mom2 (AVar n_j)))));,
SMemC n_pDenS (EDen n_prop n_propP)).
(** eemm::amp: user-dir/eemm.cpp 86-91 *)
Definition eemmQED2_amp : meth := mkMeth n_amp [(n_ds1, PkI); (n_ds2, PkI); (n_ds3, PkI); (n_ds4, PkI)]
(SLoc rT n_two (EUn D2T (ELit (2 # 1)));,
SReturnC (((((EUn NegT (ELocT n_two)) *t (EMemT n_e)) *t (EMemT n_e)) *tc (((((EV n_a13a [(AVar n_ds1); (AVar n_ds3)]) *c (EV n_s24s [(AVar n_ds2); (AVar n_ds4)])) +c ((EV n_a14a [(AVar n_ds1); (AVar n_ds4)]) *c (EV n_s23s [(AVar n_ds2); (AVar n_ds3)]))) +c ((EV n_s13s [(AVar n_ds1); (AVar n_ds3)]) *c (EV n_a24a [(AVar n_ds2); (AVar n_ds4)]))) +c ((EV n_s14s [(AVar n_ds1); (AVar n_ds4)]) *c (EV n_a23a [(AVar n_ds2); (AVar n_ds3)])))) /c (EMemC n_pDenS))).
(** eemm::amp2: user-dir/eemm.cpp 95-110 *)
Definition eemmQED2_amp2 : meth := mkMeth n_amp2 []
(SLoc rT n_four (EUn D2T (ELit (4 # 1)));,
SLoc rT n_amp2 (EUn I2T (EInt 0));,
SDecl rC n_M;,
(SFor n_ds1 (EUn NegI (EInt 1)) (EBin (CmpI CLe) (ELocI n_ds1) (EInt 1)) (EBin (OpI IAdd) (ELocI n_ds1) (EInt 2))
(SFor n_ds2 (EUn NegI (EInt 1)) (EBin (CmpI CLe) (ELocI n_ds2) (EInt 1)) (EBin (OpI IAdd) (ELocI n_ds2) (EInt 2))
(SFor n_ds3 (EUn NegI (EInt 1)) (EBin (CmpI CLe) (ELocI n_ds3) (EInt 1)) (EBin (OpI IAdd) (ELocI n_ds3) (EInt 2))
(SFor n_ds4 (EUn NegI (EInt 1)) (EBin (CmpI CLe) (ELocI n_ds4) (EInt 1)) (EBin (OpI IAdd) (ELocI n_ds4) (EInt 2))
(SLoc rC n_M (ECall n_amp [(AVar n_ds1); (AVar n_ds2); (AVar n_ds3); (AVar n_ds4)]);,
SLoc rT n_amp2 ((ELocT n_amp2) +t (EUn Pow2T (EUn AbsC (ELocC n_M)))))))));,
SReturnT ((ELocT n_amp2) /t (ELocT n_four))).
(** members: user-dir/include/eemm.h 24-29; initialisers: user-dir/eemm.cpp 34 *)
Definition eemmQED2 : cls := mkCls "eemmQED2"
[(n_e, KT);
(n_me, KT);
(n_mm, KT);
(n_p1, (KPart 0));
(n_p2, (KPart 1));
(n_p3, (KPart 2));
(n_p4, (KPart 3));
(n_prop, KProp);
(n_pDenS, KC);
(n_a13a, KSprod);
(n_s13s, KSprod);
(n_a14a, KSprod);
(n_s14s, KSprod);
(n_a23a, KSprod);
(n_s23s, KSprod);
(n_a24a, KSprod);
(n_s24s, KSprod)]
[n_echarge; n_masse; n_massmu]
[]
eemmQED2_ctor
[eemmQED2_set_masses; eemmQED2_set_momenta; eemmQED2_amp; eemmQED2_amp2].

Definition SMUser_classes : list cls := [eemmQED2].
