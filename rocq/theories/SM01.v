(** Generated by tools/translate.py from SM/AAWW.cpp ... SM/AZuu.cpp.  Do not edit. *)
From Coq Require Import QArith String.
From Verif Require Import Base Scalar Particle Sproduct Lang SMSyntax SMNames.
Local Open Scope sm_scope.
Local Open Scope string_scope.

(** AAWW::AAWW: SM/AAWW.cpp 32-55 *)
Definition AAWW_ctor : stmt :=
(SLoc rT n_two (EUn I2T (EInt 2));,
SMemT n_sqrt2 (EUn SqrtT (ELocT n_two));,
SMemT n_CW (EUn SqrtT ((EUn D2T (ELit (1 # 1))) -t ((ELocT n_sinW) *t (ELocT n_sinW))));,
SPropNew n_propW (EMemT n_MW) (EMemT n_WW);,
SParticle 0 (EUn I2T (EInt 0));,
SParticle 1 (EUn I2T (EInt 0));,
SParticle 2 (EMemT n_MW);,
SParticle 3 (EMemT n_MW);,
SSprod n_s12s false 0 [] 1;,
SSprod n_a12a true 0 [] 1;,
SSprod n_s34s false 2 [] 3;,
SSprod n_a34a true 2 [] 3;,
SSprod n_s14s false 0 [] 3;,
SSprod n_a14a true 0 [] 3;,
SSprod n_s13s false 0 [] 2;,
SSprod n_a13a true 0 [] 2;,
SSprod n_s24s false 1 [] 3;,
SSprod n_a24a true 1 [] 3;,
SSprod n_s23s false 1 [] 2;,
SSprod n_a23a true 1 [] 2).
(** AAWW::set_masses: SM/AAWW.cpp 56-61 *)
Definition AAWW_set_masses : meth := mkMeth n_set_masses [(n_massW, PkT)]
(SMemT n_MW (ELocT n_massW);,
SSetMass 2 (EMemT n_MW);,
SSetMass 3 (EMemT n_MW);,
SPropMass n_propW (EMemT n_MW)).
(** AAWW::set_momenta: SM/AAWW.cpp 62-89 *)
Definition AAWW_set_momenta : meth := mkMeth n_set_momenta [(n_mom1, PkMom); (n_mom2, PkMom); (n_mom3, PkMom); (n_mom4, PkMom)]
(SSetMomentum 0 n_mom1;,
SSetMomentum 1 n_mom2;,
SSetMomentum 2 n_mom3;,
SSetMomentum 3 n_mom4;,
SUpdate n_s12s;,
SUpdate n_a12a;,
SUpdate n_s34s;,
SUpdate n_a34a;,
SUpdate n_s14s;,
SUpdate n_a14a;,
SUpdate n_s13s;,
SUpdate n_a13a;,
SUpdate n_s24s;,
SUpdate n_a24a;,
SUpdate n_s23s;,
SUpdate n_a23a;,
SDeclT n_propTP 4;,
SDeclT n_propUP 4;,
(SFor n_j (EInt 0) (EBin (CmpI CLt) (ELocI n_j) (EInt 4)) (EBin (OpI IAdd) (ELocI n_j) (EInt 1))
(SArrT n_propTP (AVar n_j) ((EArrT n_mom1 (AVar n_j)) -t (EArrT n_mom3 (AVar n_j)));,
SArrT n_propUP (AVar n_j) ((EArrT n_mom1 (AVar n_j)) -t (EArrT n_mom4 (AVar n_j)))));,
SMemC n_pDenT (EDen n_propW n_propTP);,
SMemC n_pDenU (EDen n_propW n_propUP)).
(** AAWW::amp: SM/AAWW.cpp 94-141 *)
Definition AAWW_amp : meth := mkMeth n_amp [(n_ds1, PkI); (n_ds2, PkI); (n_ds3, PkI); (n_ds4, PkI)]
(SLoc rC n_amplitude (EBin OpTTC (EUn I2T (EInt 0)) (EUn I2T (EInt 0)));,
SLoc rT n_two (EUn I2T (EInt 2));,
SDecl rI n_ds3a;,
SDecl rI n_ds3b;,
SDecl rI n_ds4a;,
SDecl rI n_ds4b;,
SLoc rI n_nCombs (ENLoops [(AVar n_ds3); (AVar n_ds4)]);,
SLoc rT n_normFactor (ENorm [(AVar n_ds3); (AVar n_ds4)]);,
(SFor n_i (EInt 0) (EBin (CmpI CLt) (ELocI n_i) (ELocI n_nCombs)) (EBin (OpI IAdd) (ELocI n_i) (EInt 1))
(SSpins [(n_ds3, n_ds3a, n_ds3b); (n_ds4, n_ds4a, n_ds4b)] (AVar n_i);,
(SIf (EAnd (EBin (CmpI CGt) (ELocI n_ds1) (EInt 0)) (EBin (CmpI CGt) (ELocI n_ds2) (EInt 0)))
(SLoc rC n_amplitude ((ELocC n_amplitude) +c ((((((((((EUn NegT (ELocT n_normFactor)) *t (EUn D2T (ELit (2 # 1)))) *t (EMemT n_e)) *t (EMemT n_e)) *tc (EV n_s12s [])) *c (EV n_s12s [])) *c (EV n_a34a [(AVar n_ds3a); (AVar n_ds4a)])) *c (EV n_a34a [(AVar n_ds3b); (AVar n_ds4b)])) /c (EMemC n_pDenT)) /c (EMemC n_pDenU))))
((SIf (EAnd (EBin (CmpI CGt) (ELocI n_ds1) (EInt 0)) (EBin (CmpI CLt) (ELocI n_ds2) (EInt 0)))
(SLoc rC n_amplitude ((ELocC n_amplitude) +c ((((((((EUn NegT (ELocT n_normFactor)) *t (EUn D2T (ELit (2 # 1)))) *t (EMemT n_e)) *t (EMemT n_e)) *tc (((EV n_a24a [(AVar n_ds4a)]) *c (EV n_s13s [(AVar n_ds3a)])) +c ((EV n_a23a [(AVar n_ds3a)]) *c (EV n_s14s [(AVar n_ds4a)])))) *c (((EV n_a24a [(AVar n_ds4b)]) *c (EV n_s13s [(AVar n_ds3b)])) +c ((EV n_a23a [(AVar n_ds3b)]) *c (EV n_s14s [(AVar n_ds4b)])))) /c (EMemC n_pDenT)) /c (EMemC n_pDenU))))
((SIf (EAnd (EBin (CmpI CLt) (ELocI n_ds1) (EInt 0)) (EBin (CmpI CGt) (ELocI n_ds2) (EInt 0)))
(SLoc rC n_amplitude ((ELocC n_amplitude) +c ((((((((EUn NegT (ELocT n_normFactor)) *t (EUn D2T (ELit (2 # 1)))) *t (EMemT n_e)) *t (EMemT n_e)) *tc (((EV n_s24s [(AVar n_ds4a)]) *c (EV n_a13a [(AVar n_ds3a)])) +c ((EV n_s23s [(AVar n_ds3a)]) *c (EV n_a14a [(AVar n_ds4a)])))) *c (((EV n_s24s [(AVar n_ds4b)]) *c (EV n_a13a [(AVar n_ds3b)])) +c ((EV n_s23s [(AVar n_ds3b)]) *c (EV n_a14a [(AVar n_ds4b)])))) /c (EMemC n_pDenT)) /c (EMemC n_pDenU))))
((SIf (EAnd (EBin (CmpI CLt) (ELocI n_ds1) (EInt 0)) (EBin (CmpI CLt) (ELocI n_ds2) (EInt 0)))
(SLoc rC n_amplitude ((ELocC n_amplitude) +c ((((((((((EUn NegT (ELocT n_normFactor)) *t (EUn D2T (ELit (2 # 1)))) *t (EMemT n_e)) *t (EMemT n_e)) *tc (EV n_a12a [])) *c (EV n_a12a [])) *c (EV n_s34s [(AVar n_ds3a); (AVar n_ds4a)])) *c (EV n_s34s [(AVar n_ds3b); (AVar n_ds4b)])) /c (EMemC n_pDenT)) /c (EMemC n_pDenU))))
(SSkip))))))))));,
SReturnC (ELocC n_amplitude)).
(** AAWW::amp2: SM/AAWW.cpp 144-158 *)
Definition AAWW_amp2 : meth := mkMeth n_amp2 []
(SLoc rT n_amp2 (EUn I2T (EInt 0));,
SDecl rC n_M;,
(SFor n_j1 (EUn NegI (EInt 2)) (EBin (CmpI CLe) (ELocI n_j1) (EInt 2)) (EBin (OpI IAdd) (ELocI n_j1) (EInt 4))
(SFor n_j2 (EUn NegI (EInt 2)) (EBin (CmpI CLe) (ELocI n_j2) (EInt 2)) (EBin (OpI IAdd) (ELocI n_j2) (EInt 4))
(SFor n_j3 (EUn NegI (EInt 2)) (EBin (CmpI CLe) (ELocI n_j3) (EInt 2)) (EBin (OpI IAdd) (ELocI n_j3) (EInt 2))
(SFor n_j4 (EUn NegI (EInt 2)) (EBin (CmpI CLe) (ELocI n_j4) (EInt 2)) (EBin (OpI IAdd) (ELocI n_j4) (EInt 2))
(SLoc rC n_M (ECall n_amp [(AVar n_j1); (AVar n_j2); (AVar n_j3); (AVar n_j4)]);,
SLoc rT n_amp2 ((ELocT n_amp2) +t (EUn Pow2T (EUn AbsC (ELocC n_M)))))))));,
SReturnT ((ELocT n_amp2) /t (EUn D2T (ELit (4 # 1))))).
(** AAWW::amp2_Aplus_Aplus: SM/AAWW.cpp 161-172 *)
Definition AAWW_amp2_Aplus_Aplus : meth := mkMeth n_amp2_Aplus_Aplus []
(SLoc rT n_amp2 (EUn I2T (EInt 0));,
SDecl rC n_M;,
(SFor n_j3 (EUn NegI (EInt 2)) (EBin (CmpI CLe) (ELocI n_j3) (EInt 2)) (EBin (OpI IAdd) (ELocI n_j3) (EInt 2))
(SFor n_j4 (EUn NegI (EInt 2)) (EBin (CmpI CLe) (ELocI n_j4) (EInt 2)) (EBin (OpI IAdd) (ELocI n_j4) (EInt 2))
(SLoc rC n_M (ECall n_amp [(ALit 2); (ALit 2); (AVar n_j3); (AVar n_j4)]);,
SLoc rT n_amp2 ((ELocT n_amp2) +t (EUn Pow2T (EUn AbsC (ELocC n_M)))))));,
SReturnT (ELocT n_amp2)).
(** AAWW::amp2_Aplus_Aminus: SM/AAWW.cpp 175-186 *)
Definition AAWW_amp2_Aplus_Aminus : meth := mkMeth n_amp2_Aplus_Aminus []
(SLoc rT n_amp2 (EUn I2T (EInt 0));,
SDecl rC n_M;,
(SFor n_j3 (EUn NegI (EInt 2)) (EBin (CmpI CLe) (ELocI n_j3) (EInt 2)) (EBin (OpI IAdd) (ELocI n_j3) (EInt 2))
(SFor n_j4 (EUn NegI (EInt 2)) (EBin (CmpI CLe) (ELocI n_j4) (EInt 2)) (EBin (OpI IAdd) (ELocI n_j4) (EInt 2))
(SLoc rC n_M (ECall n_amp [(ALit 2); (ALit (-2)); (AVar n_j3); (AVar n_j4)]);,
SLoc rT n_amp2 ((ELocT n_amp2) +t (EUn Pow2T (EUn AbsC (ELocC n_M)))))));,
SReturnT (ELocT n_amp2)).
(** members: SM/include/AAWW.h 26-33; initialisers: SM/AAWW.cpp 32-33 *)
Definition AAWW : cls := mkCls "AAWW"
[(n_e, KT);
(n_MW, KT);
(n_SW, KT);
(n_CW, KT);
(n_WW, KT);
(n_p1, (KPart 0));
(n_p2, (KPart 1));
(n_p3, (KPart 2));
(n_p4, (KPart 3));
(n_propW, KProp);
(n_pDenT, KC);
(n_pDenU, KC);
(n_s12s, KSprod);
(n_a12a, KSprod);
(n_a34a, KSprod);
(n_s34s, KSprod);
(n_a14a, KSprod);
(n_s14s, KSprod);
(n_a13a, KSprod);
(n_s13s, KSprod);
(n_s24s, KSprod);
(n_a24a, KSprod);
(n_s23s, KSprod);
(n_a23a, KSprod);
(n_sqrt2, KT)]
[n_echarge; n_massW; n_sinW; n_widthW]
[(n_e, NT (ELocT n_echarge));
(n_MW, NT (ELocT n_massW));
(n_SW, NT (ELocT n_sinW));
(n_CW, NT (EUn SqrtT ((EUn D2T (ELit (1 # 1))) -t ((ELocT n_sinW) *t (ELocT n_sinW)))));
(n_WW, NT (ELocT n_widthW))]
AAWW_ctor
[AAWW_set_masses; AAWW_set_momenta; AAWW_amp; AAWW_amp2; AAWW_amp2_Aplus_Aplus; AAWW_amp2_Aplus_Aminus].

(** AAdd::AAdd: SM/AAdd.cpp 32-54 *)
Definition AAdd_ctor : stmt :=
(SLoc rT n_two (EUn I2T (EInt 2));,
SMemT n_sqrt2 (EUn SqrtT (ELocT n_two));,
SParticle 0 (EUn I2T (EInt 0));,
SParticle 1 (EUn I2T (EInt 0));,
SParticle 2 (EMemT n_md);,
SParticle 3 (EMemT n_md);,
SSprod n_s34s false 2 [] 3;,
SSprod n_a34a true 2 [] 3;,
SSprod n_s12s false 0 [] 1;,
SSprod n_a12a true 0 [] 1;,
SSprod n_s13s false 0 [] 2;,
SSprod n_a13a true 0 [] 2;,
SSprod n_s24s false 1 [] 3;,
SSprod n_a24a true 1 [] 3;,
SSprod n_s23s false 1 [] 2;,
SSprod n_a23a true 1 [] 2;,
SSprod n_s14s false 0 [] 3;,
SSprod n_a14a true 0 [] 3;,
SSprod n_s132a false 0 [2] 1;,
SSprod n_s231a false 1 [2] 0).
(** AAdd::set_masses: SM/AAdd.cpp 55-60 *)
Definition AAdd_set_masses : meth := mkMeth n_set_masses [(n_massd, PkT)]
(SMemT n_md (ELocT n_massd);,
SSetMass 2 (EMemT n_md);,
SSetMass 3 (EMemT n_md);,
SPropMass n_prop (EMemT n_md)).
(** AAdd::set_momenta: SM/AAdd.cpp 61-90 *)
Definition AAdd_set_momenta : meth := mkMeth n_set_momenta [(n_mom1, PkMom); (n_mom2, PkMom); (n_mom3, PkMom); (n_mom4, PkMom)]
(SSetMomentum 0 n_mom1;,
SSetMomentum 1 n_mom2;,
SSetMomentum 2 n_mom3;,
SSetMomentum 3 n_mom4;,
SUpdate n_s34s;,
SUpdate n_a34a;,
SUpdate n_s12s;,
SUpdate n_a12a;,
SUpdate n_s13s;,
SUpdate n_a13a;,
SUpdate n_s24s;,
SUpdate n_a24a;,
SUpdate n_s23s;,
SUpdate n_a23a;,
SUpdate n_s14s;,
SUpdate n_a14a;,
SUpdate n_s132a;,
SUpdate n_s231a;,
SDeclT n_propTP 4;,
SDeclT n_propUP 4;,
(SFor n_j (EInt 0) (EBin (CmpI CLt) (ELocI n_j) (EInt 4)) (EBin (OpI IAdd) (ELocI n_j) (EInt 1))
(SArrT n_propTP (AVar n_j) ((EArrT n_mom1 (AVar n_j)) -t (EArrT n_mom3 (AVar n_j)));,
SArrT n_propUP (AVar n_j) ((EArrT n_mom1 (AVar n_j)) -t (EArrT n_mom4 (AVar n_j)))));,
SMemC n_pDenT (EDen n_prop n_propTP);,
SMemC n_pDenU (EDen n_prop n_propUP)).
(** AAdd::amp: SM/AAdd.cpp 97-123 *)
Definition AAdd_amp : meth := mkMeth n_amp [(n_ds1, PkI); (n_ds2, PkI); (n_ds3, PkI); (n_ds4, PkI)]
((SIf (EAnd (EBin (CmpI CGt) (ELocI n_ds1) (EInt 0)) (EBin (CmpI CGt) (ELocI n_ds2) (EInt 0)))
(SReturnC (((((((((((EUn D2T (ELit (2 # 1))) *t (EMemT n_e)) *t (EMemT n_e)) *t (EMemT n_Qd)) *t (EMemT n_Qd)) *t (EMemT n_md)) *tc (EV n_s12s [])) *c (EV n_s12s [])) *c (EV n_a34a [(AVar n_ds3); (AVar n_ds4)])) /c (EMemC n_pDenT)) /c (EMemC n_pDenU)))
((SIf (EAnd (EBin (CmpI CLt) (ELocI n_ds1) (EInt 0)) (EBin (CmpI CLt) (ELocI n_ds2) (EInt 0)))
(SReturnC (((((((((((EUn D2T (ELit (2 # 1))) *t (EMemT n_e)) *t (EMemT n_e)) *t (EMemT n_Qd)) *t (EMemT n_Qd)) *t (EMemT n_md)) *tc (EV n_a12a [])) *c (EV n_a12a [])) *c (EV n_s34s [(AVar n_ds3); (AVar n_ds4)])) /c (EMemC n_pDenT)) /c (EMemC n_pDenU)))
((SIf (EAnd (EBin (CmpI CGt) (ELocI n_ds1) (EInt 0)) (EBin (CmpI CLt) (ELocI n_ds2) (EInt 0)))
(SReturnC (((((((((EUn D2T (EUn NegD (ELit (2 # 1)))) *t (EMemT n_e)) *t (EMemT n_e)) *t (EMemT n_Qd)) *t (EMemT n_Qd)) *tc (((EV n_s13s [(AVar n_ds3)]) *c (EV n_a24a [(AVar n_ds4)])) +c ((EV n_s14s [(AVar n_ds4)]) *c (EV n_a23a [(AVar n_ds3)])))) *c (EV n_s132a [])) /c (EMemC n_pDenT)) /c (EMemC n_pDenU)))
((SIf (EAnd (EBin (CmpI CLt) (ELocI n_ds1) (EInt 0)) (EBin (CmpI CGt) (ELocI n_ds2) (EInt 0)))
(SReturnC (((((((((EUn D2T (EUn NegD (ELit (2 # 1)))) *t (EMemT n_e)) *t (EMemT n_e)) *t (EMemT n_Qd)) *t (EMemT n_Qd)) *tc (((EV n_a13a [(AVar n_ds3)]) *c (EV n_s24s [(AVar n_ds4)])) +c ((EV n_a14a [(AVar n_ds4)]) *c (EV n_s23s [(AVar n_ds3)])))) *c (EV n_s231a [])) /c (EMemC n_pDenT)) /c (EMemC n_pDenU)))
(SSkip))))))));,
SReturnC (EBin OpTTC (EUn I2T (EInt 0)) (EUn I2T (EInt 0)))).
(** AAdd::amp2: SM/AAdd.cpp 127-141 *)
Definition AAdd_amp2 : meth := mkMeth n_amp2 []
(SLoc rT n_amp2 (EUn I2T (EInt 0));,
SDecl rC n_M;,
(SFor n_j1 (EUn NegI (EInt 2)) (EBin (CmpI CLe) (ELocI n_j1) (EInt 2)) (EBin (OpI IAdd) (ELocI n_j1) (EInt 4))
(SFor n_j2 (EUn NegI (EInt 2)) (EBin (CmpI CLe) (ELocI n_j2) (EInt 2)) (EBin (OpI IAdd) (ELocI n_j2) (EInt 4))
(SFor n_j3 (EUn NegI (EInt 1)) (EBin (CmpI CLe) (ELocI n_j3) (EInt 1)) (EBin (OpI IAdd) (ELocI n_j3) (EInt 2))
(SFor n_j4 (EUn NegI (EInt 1)) (EBin (CmpI CLe) (ELocI n_j4) (EInt 1)) (EBin (OpI IAdd) (ELocI n_j4) (EInt 2))
(SLoc rC n_M (ECall n_amp [(AVar n_j1); (AVar n_j2); (AVar n_j3); (AVar n_j4)]);,
SLoc rT n_amp2 ((ELocT n_amp2) +t ((EUn D2T (ELit (3 # 1))) *t (EUn Pow2T (EUn AbsC (ELocC n_M))))))))));,
SReturnT ((ELocT n_amp2) /t (EUn D2T (ELit (4 # 1))))).
(** AAdd::amp2_Aplus_Aplus: SM/AAdd.cpp 144-155 *)
Definition AAdd_amp2_Aplus_Aplus : meth := mkMeth n_amp2_Aplus_Aplus []
(SLoc rT n_amp2 (EUn I2T (EInt 0));,
SDecl rC n_M;,
(SFor n_j3 (EUn NegI (EInt 1)) (EBin (CmpI CLe) (ELocI n_j3) (EInt 1)) (EBin (OpI IAdd) (ELocI n_j3) (EInt 2))
(SFor n_j4 (EUn NegI (EInt 1)) (EBin (CmpI CLe) (ELocI n_j4) (EInt 1)) (EBin (OpI IAdd) (ELocI n_j4) (EInt 2))
(SLoc rC n_M (ECall n_amp [(ALit 2); (ALit 2); (AVar n_j3); (AVar n_j4)]);,
SLoc rT n_amp2 ((ELocT n_amp2) +t ((EUn D2T (ELit (3 # 1))) *t (EUn Pow2T (EUn AbsC (ELocC n_M))))))));,
SReturnT (ELocT n_amp2)).
(** AAdd::amp2_Aplus_Aminus: SM/AAdd.cpp 158-169 *)
Definition AAdd_amp2_Aplus_Aminus : meth := mkMeth n_amp2_Aplus_Aminus []
(SLoc rT n_amp2 (EUn I2T (EInt 0));,
SDecl rC n_M;,
(SFor n_j3 (EUn NegI (EInt 1)) (EBin (CmpI CLe) (ELocI n_j3) (EInt 1)) (EBin (OpI IAdd) (ELocI n_j3) (EInt 2))
(SFor n_j4 (EUn NegI (EInt 1)) (EBin (CmpI CLe) (ELocI n_j4) (EInt 1)) (EBin (OpI IAdd) (ELocI n_j4) (EInt 2))
(SLoc rC n_M (ECall n_amp [(ALit 2); (ALit (-2)); (AVar n_j3); (AVar n_j4)]);,
SLoc rT n_amp2 ((ELocT n_amp2) +t ((EUn D2T (ELit (3 # 1))) *t (EUn Pow2T (EUn AbsC (ELocC n_M))))))));,
SReturnT (ELocT n_amp2)).
(** members: SM/include/AAdd.h 26-32; initialisers: SM/AAdd.cpp 32-33 *)
Definition AAdd : cls := mkCls "AAdd"
[(n_e, KT);
(n_Qd, KT);
(n_md, KT);
(n_p1, (KPart 0));
(n_p2, (KPart 1));
(n_p3, (KPart 2));
(n_p4, (KPart 3));
(n_prop, KProp);
(n_pDenT, KC);
(n_pDenU, KC);
(n_s34s, KSprod);
(n_a34a, KSprod);
(n_s12s, KSprod);
(n_a12a, KSprod);
(n_s13s, KSprod);
(n_a13a, KSprod);
(n_s24s, KSprod);
(n_a24a, KSprod);
(n_s23s, KSprod);
(n_a23a, KSprod);
(n_s14s, KSprod);
(n_a14a, KSprod);
(n_s132a, KSprod);
(n_s231a, KSprod);
(n_sqrt2, KT)]
[n_echarge; n_massd]
[(n_e, NT (ELocT n_echarge));
(n_Qd, NT (EUn D2T ((EUn NegD (ELit (1 # 1))) /d (ELit (3 # 1)))));
(n_md, NT (ELocT n_massd));
(n_prop, NProp (ELocT n_massd) (EUn I2T (EInt 0)))]
AAdd_ctor
[AAdd_set_masses; AAdd_set_momenta; AAdd_amp; AAdd_amp2; AAdd_amp2_Aplus_Aplus; AAdd_amp2_Aplus_Aminus].

(** AAee::AAee: SM/AAee.cpp 32-54 *)
Definition AAee_ctor : stmt :=
(SLoc rT n_two (EUn I2T (EInt 2));,
SMemT n_sqrt2 (EUn SqrtT (ELocT n_two));,
SParticle 0 (EUn I2T (EInt 0));,
SParticle 1 (EUn I2T (EInt 0));,
SParticle 2 (EMemT n_me);,
SParticle 3 (EMemT n_me);,
SSprod n_s34s false 2 [] 3;,
SSprod n_a34a true 2 [] 3;,
SSprod n_s12s false 0 [] 1;,
SSprod n_a12a true 0 [] 1;,
SSprod n_s13s false 0 [] 2;,
SSprod n_a13a true 0 [] 2;,
SSprod n_s24s false 1 [] 3;,
SSprod n_a24a true 1 [] 3;,
SSprod n_s23s false 1 [] 2;,
SSprod n_a23a true 1 [] 2;,
SSprod n_s14s false 0 [] 3;,
SSprod n_a14a true 0 [] 3;,
SSprod n_s132a false 0 [2] 1;,
SSprod n_s231a false 1 [2] 0).
(** AAee::set_masses: SM/AAee.cpp 55-60 *)
Definition AAee_set_masses : meth := mkMeth n_set_masses [(n_masse, PkT)]
(SMemT n_me (ELocT n_masse);,
SSetMass 2 (EMemT n_me);,
SSetMass 3 (EMemT n_me);,
SPropMass n_prop (EMemT n_me)).
(** AAee::set_momenta: SM/AAee.cpp 61-90 *)
Definition AAee_set_momenta : meth := mkMeth n_set_momenta [(n_mom1, PkMom); (n_mom2, PkMom); (n_mom3, PkMom); (n_mom4, PkMom)]
(SSetMomentum 0 n_mom1;,
SSetMomentum 1 n_mom2;,
SSetMomentum 2 n_mom3;,
SSetMomentum 3 n_mom4;,
SUpdate n_s34s;,
SUpdate n_a34a;,
SUpdate n_s12s;,
SUpdate n_a12a;,
SUpdate n_s13s;,
SUpdate n_a13a;,
SUpdate n_s24s;,
SUpdate n_a24a;,
SUpdate n_s23s;,
SUpdate n_a23a;,
SUpdate n_s14s;,
SUpdate n_a14a;,
SUpdate n_s132a;,
SUpdate n_s231a;,
SDeclT n_propTP 4;,
SDeclT n_propUP 4;,
(SFor n_j (EInt 0) (EBin (CmpI CLt) (ELocI n_j) (EInt 4)) (EBin (OpI IAdd) (ELocI n_j) (EInt 1))
(SArrT n_propTP (AVar n_j) ((EArrT n_mom1 (AVar n_j)) -t (EArrT n_mom3 (AVar n_j)));,
SArrT n_propUP (AVar n_j) ((EArrT n_mom1 (AVar n_j)) -t (EArrT n_mom4 (AVar n_j)))));,
SMemC n_pDenT (EDen n_prop n_propTP);,
SMemC n_pDenU (EDen n_prop n_propUP)).
(** AAee::amp: SM/AAee.cpp 97-123 *)
Definition AAee_amp : meth := mkMeth n_amp [(n_ds1, PkI); (n_ds2, PkI); (n_ds3, PkI); (n_ds4, PkI)]
((SIf (EAnd (EBin (CmpI CGt) (ELocI n_ds1) (EInt 0)) (EBin (CmpI CGt) (ELocI n_ds2) (EInt 0)))
(SReturnC (((((((((EUn D2T (ELit (2 # 1))) *t (EMemT n_e)) *t (EMemT n_e)) *t (EMemT n_me)) *tc (EV n_s12s [])) *c (EV n_s12s [])) *c (EV n_a34a [(AVar n_ds3); (AVar n_ds4)])) /c (EMemC n_pDenT)) /c (EMemC n_pDenU)))
((SIf (EAnd (EBin (CmpI CLt) (ELocI n_ds1) (EInt 0)) (EBin (CmpI CLt) (ELocI n_ds2) (EInt 0)))
(SReturnC (((((((((EUn D2T (ELit (2 # 1))) *t (EMemT n_e)) *t (EMemT n_e)) *t (EMemT n_me)) *tc (EV n_a12a [])) *c (EV n_a12a [])) *c (EV n_s34s [(AVar n_ds3); (AVar n_ds4)])) /c (EMemC n_pDenT)) /c (EMemC n_pDenU)))
((SIf (EAnd (EBin (CmpI CGt) (ELocI n_ds1) (EInt 0)) (EBin (CmpI CLt) (ELocI n_ds2) (EInt 0)))
(SReturnC (((((((EUn D2T (EUn NegD (ELit (2 # 1)))) *t (EMemT n_e)) *t (EMemT n_e)) *tc (((EV n_s13s [(AVar n_ds3)]) *c (EV n_a24a [(AVar n_ds4)])) +c ((EV n_s14s [(AVar n_ds4)]) *c (EV n_a23a [(AVar n_ds3)])))) *c (EV n_s132a [])) /c (EMemC n_pDenT)) /c (EMemC n_pDenU)))
((SIf (EAnd (EBin (CmpI CLt) (ELocI n_ds1) (EInt 0)) (EBin (CmpI CGt) (ELocI n_ds2) (EInt 0)))
(SReturnC (((((((EUn D2T (EUn NegD (ELit (2 # 1)))) *t (EMemT n_e)) *t (EMemT n_e)) *tc (((EV n_a13a [(AVar n_ds3)]) *c (EV n_s24s [(AVar n_ds4)])) +c ((EV n_a14a [(AVar n_ds4)]) *c (EV n_s23s [(AVar n_ds3)])))) *c (EV n_s231a [])) /c (EMemC n_pDenT)) /c (EMemC n_pDenU)))
(SSkip))))))));,
SReturnC (EBin OpTTC (EUn I2T (EInt 0)) (EUn I2T (EInt 0)))).
(** AAee::amp2: SM/AAee.cpp 127-141 *)
Definition AAee_amp2 : meth := mkMeth n_amp2 []
(SLoc rT n_amp2 (EUn I2T (EInt 0));,
SDecl rC n_M;,
(SFor n_j1 (EUn NegI (EInt 2)) (EBin (CmpI CLe) (ELocI n_j1) (EInt 2)) (EBin (OpI IAdd) (ELocI n_j1) (EInt 4))
(SFor n_j2 (EUn NegI (EInt 2)) (EBin (CmpI CLe) (ELocI n_j2) (EInt 2)) (EBin (OpI IAdd) (ELocI n_j2) (EInt 4))
(SFor n_j3 (EUn NegI (EInt 1)) (EBin (CmpI CLe) (ELocI n_j3) (EInt 1)) (EBin (OpI IAdd) (ELocI n_j3) (EInt 2))
(SFor n_j4 (EUn NegI (EInt 1)) (EBin (CmpI CLe) (ELocI n_j4) (EInt 1)) (EBin (OpI IAdd) (ELocI n_j4) (EInt 2))
(SLoc rC n_M (ECall n_amp [(AVar n_j1); (AVar n_j2); (AVar n_j3); (AVar n_j4)]);,
SLoc rT n_amp2 ((ELocT n_amp2) +t (EUn Pow2T (EUn AbsC (ELocC n_M)))))))));,
SReturnT ((ELocT n_amp2) /t (EUn D2T (ELit (4 # 1))))).
(** AAee::amp2_Aplus_Aplus: SM/AAee.cpp 144-155 *)
Definition AAee_amp2_Aplus_Aplus : meth := mkMeth n_amp2_Aplus_Aplus []
(SLoc rT n_amp2 (EUn I2T (EInt 0));,
SDecl rC n_M;,
(SFor n_j3 (EUn NegI (EInt 1)) (EBin (CmpI CLe) (ELocI n_j3) (EInt 1)) (EBin (OpI IAdd) (ELocI n_j3) (EInt 2))
(SFor n_j4 (EUn NegI (EInt 1)) (EBin (CmpI CLe) (ELocI n_j4) (EInt 1)) (EBin (OpI IAdd) (ELocI n_j4) (EInt 2))
(SLoc rC n_M (ECall n_amp [(ALit 2); (ALit 2); (AVar n_j3); (AVar n_j4)]);,
SLoc rT n_amp2 ((ELocT n_amp2) +t (EUn Pow2T (EUn AbsC (ELocC n_M)))))));,
SReturnT (ELocT n_amp2)).
(** AAee::amp2_Aplus_Aminus: SM/AAee.cpp 158-169 *)
Definition AAee_amp2_Aplus_Aminus : meth := mkMeth n_amp2_Aplus_Aminus []
(SLoc rT n_amp2 (EUn I2T (EInt 0));,
SDecl rC n_M;,
(SFor n_j3 (EUn NegI (EInt 1)) (EBin (CmpI CLe) (ELocI n_j3) (EInt 1)) (EBin (OpI IAdd) (ELocI n_j3) (EInt 2))
(SFor n_j4 (EUn NegI (EInt 1)) (EBin (CmpI CLe) (ELocI n_j4) (EInt 1)) (EBin (OpI IAdd) (ELocI n_j4) (EInt 2))
(SLoc rC n_M (ECall n_amp [(ALit 2); (ALit (-2)); (AVar n_j3); (AVar n_j4)]);,
SLoc rT n_amp2 ((ELocT n_amp2) +t (EUn Pow2T (EUn AbsC (ELocC n_M)))))));,
SReturnT (ELocT n_amp2)).
(** members: SM/include/AAee.h 26-32; initialisers: SM/AAee.cpp 32-33 *)
Definition AAee : cls := mkCls "AAee"
[(n_e, KT);
(n_me, KT);
(n_p1, (KPart 0));
(n_p2, (KPart 1));
(n_p3, (KPart 2));
(n_p4, (KPart 3));
(n_prop, KProp);
(n_pDenT, KC);
(n_pDenU, KC);
(n_s34s, KSprod);
(n_a34a, KSprod);
(n_s12s, KSprod);
(n_a12a, KSprod);
(n_s13s, KSprod);
(n_a13a, KSprod);
(n_s24s, KSprod);
(n_a24a, KSprod);
(n_s23s, KSprod);
(n_a23a, KSprod);
(n_s14s, KSprod);
(n_a14a, KSprod);
(n_s132a, KSprod);
(n_s231a, KSprod);
(n_sqrt2, KT)]
[n_echarge; n_masse]
[(n_e, NT (ELocT n_echarge));
(n_me, NT (ELocT n_masse));
(n_prop, NProp (ELocT n_masse) (EUn I2T (EInt 0)))]
AAee_ctor
[AAee_set_masses; AAee_set_momenta; AAee_amp; AAee_amp2; AAee_amp2_Aplus_Aplus; AAee_amp2_Aplus_Aminus].

(** AAuu::AAuu: SM/AAuu.cpp 32-54 *)
Definition AAuu_ctor : stmt :=
(SLoc rT n_two (EUn I2T (EInt 2));,
SMemT n_sqrt2 (EUn SqrtT (ELocT n_two));,
SParticle 0 (EUn I2T (EInt 0));,
SParticle 1 (EUn I2T (EInt 0));,
SParticle 2 (EMemT n_mu);,
SParticle 3 (EMemT n_mu);,
SSprod n_s34s false 2 [] 3;,
SSprod n_a34a true 2 [] 3;,
SSprod n_s12s false 0 [] 1;,
SSprod n_a12a true 0 [] 1;,
SSprod n_s13s false 0 [] 2;,
SSprod n_a13a true 0 [] 2;,
SSprod n_s24s false 1 [] 3;,
SSprod n_a24a true 1 [] 3;,
SSprod n_s23s false 1 [] 2;,
SSprod n_a23a true 1 [] 2;,
SSprod n_s14s false 0 [] 3;,
SSprod n_a14a true 0 [] 3;,
SSprod n_s132a false 0 [2] 1;,
SSprod n_s231a false 1 [2] 0).
(** AAuu::set_masses: SM/AAuu.cpp 55-60 *)
Definition AAuu_set_masses : meth := mkMeth n_set_masses [(n_massu, PkT)]
(SMemT n_mu (ELocT n_massu);,
SSetMass 2 (EMemT n_mu);,
SSetMass 3 (EMemT n_mu);,
SPropMass n_prop (EMemT n_mu)).
(** AAuu::set_momenta: SM/AAuu.cpp 61-90 *)
Definition AAuu_set_momenta : meth := mkMeth n_set_momenta [(n_mom1, PkMom); (n_mom2, PkMom); (n_mom3, PkMom); (n_mom4, PkMom)]
(SSetMomentum 0 n_mom1;,
SSetMomentum 1 n_mom2;,
SSetMomentum 2 n_mom3;,
SSetMomentum 3 n_mom4;,
SUpdate n_s34s;,
SUpdate n_a34a;,
SUpdate n_s12s;,
SUpdate n_a12a;,
SUpdate n_s13s;,
SUpdate n_a13a;,
SUpdate n_s24s;,
SUpdate n_a24a;,
SUpdate n_s23s;,
SUpdate n_a23a;,
SUpdate n_s14s;,
SUpdate n_a14a;,
SUpdate n_s132a;,
SUpdate n_s231a;,
SDeclT n_propTP 4;,
SDeclT n_propUP 4;,
(SFor n_j (EInt 0) (EBin (CmpI CLt) (ELocI n_j) (EInt 4)) (EBin (OpI IAdd) (ELocI n_j) (EInt 1))
(SArrT n_propTP (AVar n_j) ((EArrT n_mom1 (AVar n_j)) -t (EArrT n_mom3 (AVar n_j)));,
SArrT n_propUP (AVar n_j) ((EArrT n_mom1 (AVar n_j)) -t (EArrT n_mom4 (AVar n_j)))));,
SMemC n_pDenT (EDen n_prop n_propTP);,
SMemC n_pDenU (EDen n_prop n_propUP)).
(** AAuu::amp: SM/AAuu.cpp 97-123 *)
Definition AAuu_amp : meth := mkMeth n_amp [(n_ds1, PkI); (n_ds2, PkI); (n_ds3, PkI); (n_ds4, PkI)]
((SIf (EAnd (EBin (CmpI CGt) (ELocI n_ds1) (EInt 0)) (EBin (CmpI CGt) (ELocI n_ds2) (EInt 0)))
(SReturnC (((((((((((EUn D2T (ELit (2 # 1))) *t (EMemT n_e)) *t (EMemT n_e)) *t (EMemT n_Qu)) *t (EMemT n_Qu)) *t (EMemT n_mu)) *tc (EV n_s12s [])) *c (EV n_s12s [])) *c (EV n_a34a [(AVar n_ds3); (AVar n_ds4)])) /c (EMemC n_pDenT)) /c (EMemC n_pDenU)))
((SIf (EAnd (EBin (CmpI CLt) (ELocI n_ds1) (EInt 0)) (EBin (CmpI CLt) (ELocI n_ds2) (EInt 0)))
(SReturnC (((((((((((EUn D2T (ELit (2 # 1))) *t (EMemT n_e)) *t (EMemT n_e)) *t (EMemT n_Qu)) *t (EMemT n_Qu)) *t (EMemT n_mu)) *tc (EV n_a12a [])) *c (EV n_a12a [])) *c (EV n_s34s [(AVar n_ds3); (AVar n_ds4)])) /c (EMemC n_pDenT)) /c (EMemC n_pDenU)))
((SIf (EAnd (EBin (CmpI CGt) (ELocI n_ds1) (EInt 0)) (EBin (CmpI CLt) (ELocI n_ds2) (EInt 0)))
(SReturnC (((((((((EUn D2T (EUn NegD (ELit (2 # 1)))) *t (EMemT n_e)) *t (EMemT n_e)) *t (EMemT n_Qu)) *t (EMemT n_Qu)) *tc (((EV n_s13s [(AVar n_ds3)]) *c (EV n_a24a [(AVar n_ds4)])) +c ((EV n_s14s [(AVar n_ds4)]) *c (EV n_a23a [(AVar n_ds3)])))) *c (EV n_s132a [])) /c (EMemC n_pDenT)) /c (EMemC n_pDenU)))
((SIf (EAnd (EBin (CmpI CLt) (ELocI n_ds1) (EInt 0)) (EBin (CmpI CGt) (ELocI n_ds2) (EInt 0)))
(SReturnC (((((((((EUn D2T (EUn NegD (ELit (2 # 1)))) *t (EMemT n_e)) *t (EMemT n_e)) *t (EMemT n_Qu)) *t (EMemT n_Qu)) *tc (((EV n_a13a [(AVar n_ds3)]) *c (EV n_s24s [(AVar n_ds4)])) +c ((EV n_a14a [(AVar n_ds4)]) *c (EV n_s23s [(AVar n_ds3)])))) *c (EV n_s231a [])) /c (EMemC n_pDenT)) /c (EMemC n_pDenU)))
(SSkip))))))));,
SReturnC (EBin OpTTC (EUn I2T (EInt 0)) (EUn I2T (EInt 0)))).
(** AAuu::amp2: SM/AAuu.cpp 127-141 *)
Definition AAuu_amp2 : meth := mkMeth n_amp2 []
(SLoc rT n_amp2 (EUn I2T (EInt 0));,
SDecl rC n_M;,
(SFor n_j1 (EUn NegI (EInt 2)) (EBin (CmpI CLe) (ELocI n_j1) (EInt 2)) (EBin (OpI IAdd) (ELocI n_j1) (EInt 4))
(SFor n_j2 (EUn NegI (EInt 2)) (EBin (CmpI CLe) (ELocI n_j2) (EInt 2)) (EBin (OpI IAdd) (ELocI n_j2) (EInt 4))
(SFor n_j3 (EUn NegI (EInt 1)) (EBin (CmpI CLe) (ELocI n_j3) (EInt 1)) (EBin (OpI IAdd) (ELocI n_j3) (EInt 2))
(SFor n_j4 (EUn NegI (EInt 1)) (EBin (CmpI CLe) (ELocI n_j4) (EInt 1)) (EBin (OpI IAdd) (ELocI n_j4) (EInt 2))
(SLoc rC n_M (ECall n_amp [(AVar n_j1); (AVar n_j2); (AVar n_j3); (AVar n_j4)]);,
SLoc rT n_amp2 ((ELocT n_amp2) +t ((EUn D2T (ELit (3 # 1))) *t (EUn Pow2T (EUn AbsC (ELocC n_M))))))))));,
SReturnT ((ELocT n_amp2) /t (EUn D2T (ELit (4 # 1))))).
(** AAuu::amp2_Aplus_Aplus: SM/AAuu.cpp 144-155 *)
Definition AAuu_amp2_Aplus_Aplus : meth := mkMeth n_amp2_Aplus_Aplus []
(SLoc rT n_amp2 (EUn I2T (EInt 0));,
SDecl rC n_M;,
(SFor n_j3 (EUn NegI (EInt 1)) (EBin (CmpI CLe) (ELocI n_j3) (EInt 1)) (EBin (OpI IAdd) (ELocI n_j3) (EInt 2))
(SFor n_j4 (EUn NegI (EInt 1)) (EBin (CmpI CLe) (ELocI n_j4) (EInt 1)) (EBin (OpI IAdd) (ELocI n_j4) (EInt 2))
(SLoc rC n_M (ECall n_amp [(ALit 2); (ALit 2); (AVar n_j3); (AVar n_j4)]);,
SLoc rT n_amp2 ((ELocT n_amp2) +t ((EUn D2T (ELit (3 # 1))) *t (EUn Pow2T (EUn AbsC (ELocC n_M))))))));,
SReturnT (ELocT n_amp2)).
(** AAuu::amp2_Aplus_Aminus: SM/AAuu.cpp 158-169 *)
Definition AAuu_amp2_Aplus_Aminus : meth := mkMeth n_amp2_Aplus_Aminus []
(SLoc rT n_amp2 (EUn I2T (EInt 0));,
SDecl rC n_M;,
(SFor n_j3 (EUn NegI (EInt 1)) (EBin (CmpI CLe) (ELocI n_j3) (EInt 1)) (EBin (OpI IAdd) (ELocI n_j3) (EInt 2))
(SFor n_j4 (EUn NegI (EInt 1)) (EBin (CmpI CLe) (ELocI n_j4) (EInt 1)) (EBin (OpI IAdd) (ELocI n_j4) (EInt 2))
(SLoc rC n_M (ECall n_amp [(ALit 2); (ALit (-2)); (AVar n_j3); (AVar n_j4)]);,
SLoc rT n_amp2 ((ELocT n_amp2) +t ((EUn D2T (ELit (3 # 1))) *t (EUn Pow2T (EUn AbsC (ELocC n_M))))))));,
SReturnT (ELocT n_amp2)).
(** members: SM/include/AAuu.h 26-32; initialisers: SM/AAuu.cpp 32-33 *)
Definition AAuu : cls := mkCls "AAuu"
[(n_e, KT);
(n_Qu, KT);
(n_mu, KT);
(n_p1, (KPart 0));
(n_p2, (KPart 1));
(n_p3, (KPart 2));
(n_p4, (KPart 3));
(n_prop, KProp);
(n_pDenT, KC);
(n_pDenU, KC);
(n_s34s, KSprod);
(n_a34a, KSprod);
(n_s12s, KSprod);
(n_a12a, KSprod);
(n_s13s, KSprod);
(n_a13a, KSprod);
(n_s24s, KSprod);
(n_a24a, KSprod);
(n_s23s, KSprod);
(n_a23a, KSprod);
(n_s14s, KSprod);
(n_a14a, KSprod);
(n_s132a, KSprod);
(n_s231a, KSprod);
(n_sqrt2, KT)]
[n_echarge; n_massu]
[(n_e, NT (ELocT n_echarge));
(n_Qu, NT (EUn D2T ((ELit (2 # 1)) /d (ELit (3 # 1)))));
(n_mu, NT (ELocT n_massu));
(n_prop, NProp (ELocT n_massu) (EUn I2T (EInt 0)))]
AAuu_ctor
[AAuu_set_masses; AAuu_set_momenta; AAuu_amp; AAuu_amp2; AAuu_amp2_Aplus_Aplus; AAuu_amp2_Aplus_Aminus].

(** AWAW::AWAW: SM/AWAW.cpp 32-55 *)
Definition AWAW_ctor : stmt :=
(SLoc rT n_two (EUn I2T (EInt 2));,
SMemT n_sqrt2 (EUn SqrtT (ELocT n_two));,
SMemT n_CW (EUn SqrtT ((EUn D2T (ELit (1 # 1))) -t ((ELocT n_sinW) *t (ELocT n_sinW))));,
SPropNew n_propW (EMemT n_MW) (EMemT n_WW);,
SParticle 0 (EUn I2T (EInt 0));,
SParticle 1 (EMemT n_MW);,
SParticle 2 (EUn I2T (EInt 0));,
SParticle 3 (EMemT n_MW);,
SSprod n_s12s false 0 [] 1;,
SSprod n_a12a true 0 [] 1;,
SSprod n_s34s false 2 [] 3;,
SSprod n_a34a true 2 [] 3;,
SSprod n_s14s false 0 [] 3;,
SSprod n_a14a true 0 [] 3;,
SSprod n_s13s false 0 [] 2;,
SSprod n_a13a true 0 [] 2;,
SSprod n_s24s false 1 [] 3;,
SSprod n_a24a true 1 [] 3;,
SSprod n_s23s false 1 [] 2;,
SSprod n_a23a true 1 [] 2).
(** AWAW::set_masses: SM/AWAW.cpp 56-61 *)
Definition AWAW_set_masses : meth := mkMeth n_set_masses [(n_massW, PkT)]
(SMemT n_MW (ELocT n_massW);,
SSetMass 1 (EMemT n_MW);,
SSetMass 3 (EMemT n_MW);,
SPropMass n_propW (EMemT n_MW)).
(** AWAW::set_momenta: SM/AWAW.cpp 62-89 *)
Definition AWAW_set_momenta : meth := mkMeth n_set_momenta [(n_mom1, PkMom); (n_mom2, PkMom); (n_mom3, PkMom); (n_mom4, PkMom)]
(SSetMomentum 0 n_mom1;,
SSetMomentum 1 n_mom2;,
SSetMomentum 2 n_mom3;,
SSetMomentum 3 n_mom4;,
SUpdate n_s12s;,
SUpdate n_a12a;,
SUpdate n_s34s;,
SUpdate n_a34a;,
SUpdate n_s14s;,
SUpdate n_a14a;,
SUpdate n_s13s;,
SUpdate n_a13a;,
SUpdate n_s24s;,
SUpdate n_a24a;,
SUpdate n_s23s;,
SUpdate n_a23a;,
SDeclT n_propSP 4;,
SDeclT n_propUP 4;,
(SFor n_j (EInt 0) (EBin (CmpI CLt) (ELocI n_j) (EInt 4)) (EBin (OpI IAdd) (ELocI n_j) (EInt 1))
(SArrT n_propSP (AVar n_j) ((EArrT n_mom1 (AVar n_j)) +t (EArrT n_mom2 (AVar n_j)));,
SArrT n_propUP (AVar n_j) ((EArrT n_mom1 (AVar n_j)) -t (EArrT n_mom4 (AVar n_j)))));,
SMemC n_pDenS (EDen n_propW n_propSP);,
SMemC n_pDenU (EDen n_propW n_propUP)).
(** AWAW::amp: SM/AWAW.cpp 94-153 *)
Definition AWAW_amp : meth := mkMeth n_amp [(n_ds1, PkI); (n_ds2, PkI); (n_ds3, PkI); (n_ds4, PkI)]
(SLoc rC n_amplitude (EBin OpTTC (EUn I2T (EInt 0)) (EUn I2T (EInt 0)));,
SLoc rT n_two (EUn I2T (EInt 2));,
SDecl rI n_ds4a;,
SDecl rI n_ds4b;,
SDecl rI n_ds2a;,
SDecl rI n_ds2b;,
SLoc rI n_nCombs (ENLoops [(AVar n_ds4); (AVar n_ds2)]);,
SLoc rT n_normFactor (ENorm [(AVar n_ds4); (AVar n_ds2)]);,
(SFor n_i (EInt 0) (EBin (CmpI CLt) (ELocI n_i) (ELocI n_nCombs)) (EBin (OpI IAdd) (ELocI n_i) (EInt 1))
(SSpins [(n_ds4, n_ds4a, n_ds4b); (n_ds2, n_ds2a, n_ds2b)] (AVar n_i);,
(SIf (EAnd (EBin (CmpI CGt) (ELocI n_ds1) (EInt 0)) (EBin (CmpI CGt) (ELocI n_ds3) (EInt 0)))
(SLoc rC n_amplitude ((ELocC n_amplitude) +c ((((((((((EUn NegT (ELocT n_normFactor)) *t (EUn D2T (ELit (2 # 1)))) *t (EMemT n_e)) *t (EMemT n_e)) *tc (EV n_s13s [])) *c (EV n_s13s [])) *c (EV n_a24a [(AVar n_ds2a); (AVar n_ds4a)])) *c (EV n_a24a [(AVar n_ds2b); (AVar n_ds4b)])) /c (EMemC n_pDenU)) /c (EMemC n_pDenS))))
((SIf (EAnd (EBin (CmpI CGt) (ELocI n_ds1) (EInt 0)) (EBin (CmpI CLt) (ELocI n_ds3) (EInt 0)))
(SLoc rC n_amplitude ((ELocC n_amplitude) +c (((((((ELocT n_normFactor) *t (EUn D2T (ELit (2 # 1)))) *t (EMemT n_e)) *t (EMemT n_e)) *tc ((((((EV n_s14s [(AVar n_ds4a)]) *c (EV n_s14s [(AVar n_ds4b)])) *c (EV n_a23a [(AVar n_ds2a)])) *c (EV n_a23a [(AVar n_ds2b)])) +c ((((EV n_s12s [(AVar n_ds2a)]) *c (EV n_s12s [(AVar n_ds2b)])) *c (EV n_a34a [(AVar n_ds4a)])) *c (EV n_a34a [(AVar n_ds4b)]))) +c (((((ELocT n_two) *tc (EV n_s14s [(AVar n_ds4a)])) *c (EV n_s12s [(AVar n_ds2a)])) *c (EV n_a34a [(AVar n_ds4b)])) *c (EV n_a23a [(AVar n_ds2b)])))) /c (EMemC n_pDenU)) /c (EMemC n_pDenS))))
((SIf (EAnd (EBin (CmpI CLt) (ELocI n_ds1) (EInt 0)) (EBin (CmpI CGt) (ELocI n_ds3) (EInt 0)))
(SLoc rC n_amplitude ((ELocC n_amplitude) +c (((((((ELocT n_normFactor) *t (EUn D2T (ELit (2 # 1)))) *t (EMemT n_e)) *t (EMemT n_e)) *tc ((((((EV n_a14a [(AVar n_ds4a)]) *c (EV n_a14a [(AVar n_ds4b)])) *c (EV n_s23s [(AVar n_ds2a)])) *c (EV n_s23s [(AVar n_ds2b)])) +c ((((EV n_a12a [(AVar n_ds2a)]) *c (EV n_a12a [(AVar n_ds2b)])) *c (EV n_s34s [(AVar n_ds4a)])) *c (EV n_s34s [(AVar n_ds4b)]))) +c (((((ELocT n_two) *tc (EV n_a14a [(AVar n_ds4a)])) *c (EV n_a12a [(AVar n_ds2a)])) *c (EV n_s34s [(AVar n_ds4b)])) *c (EV n_s23s [(AVar n_ds2b)])))) /c (EMemC n_pDenU)) /c (EMemC n_pDenS))))
((SIf (EAnd (EBin (CmpI CLt) (ELocI n_ds1) (EInt 0)) (EBin (CmpI CLt) (ELocI n_ds3) (EInt 0)))
(SLoc rC n_amplitude ((ELocC n_amplitude) +c ((((((((((EUn NegT (ELocT n_normFactor)) *t (EUn D2T (ELit (2 # 1)))) *t (EMemT n_e)) *t (EMemT n_e)) *tc (EV n_a13a [])) *c (EV n_a13a [])) *c (EV n_s24s [(AVar n_ds2a); (AVar n_ds4a)])) *c (EV n_s24s [(AVar n_ds2b); (AVar n_ds4b)])) /c (EMemC n_pDenU)) /c (EMemC n_pDenS))))
(SSkip))))))))));,
SReturnC (ELocC n_amplitude)).
(** AWAW::amp2: SM/AWAW.cpp 156-170 *)
Definition AWAW_amp2 : meth := mkMeth n_amp2 []
(SLoc rT n_amp2 (EUn I2T (EInt 0));,
SDecl rC n_M;,
(SFor n_j1 (EUn NegI (EInt 2)) (EBin (CmpI CLe) (ELocI n_j1) (EInt 2)) (EBin (OpI IAdd) (ELocI n_j1) (EInt 4))
(SFor n_j2 (EUn NegI (EInt 2)) (EBin (CmpI CLe) (ELocI n_j2) (EInt 2)) (EBin (OpI IAdd) (ELocI n_j2) (EInt 2))
(SFor n_j3 (EUn NegI (EInt 2)) (EBin (CmpI CLe) (ELocI n_j3) (EInt 2)) (EBin (OpI IAdd) (ELocI n_j3) (EInt 4))
(SFor n_j4 (EUn NegI (EInt 2)) (EBin (CmpI CLe) (ELocI n_j4) (EInt 2)) (EBin (OpI IAdd) (ELocI n_j4) (EInt 2))
(SLoc rC n_M (ECall n_amp [(AVar n_j1); (AVar n_j2); (AVar n_j3); (AVar n_j4)]);,
SLoc rT n_amp2 ((ELocT n_amp2) +t (EUn Pow2T (EUn AbsC (ELocC n_M)))))))));,
SReturnT ((ELocT n_amp2) /t (EUn D2T (ELit (6 # 1))))).
(** AWAW::amp2_Aplus: SM/AWAW.cpp 173-186 *)
Definition AWAW_amp2_Aplus : meth := mkMeth n_amp2_Aplus []
(SLoc rT n_amp2 (EUn I2T (EInt 0));,
SDecl rC n_M;,
(SFor n_j2 (EUn NegI (EInt 2)) (EBin (CmpI CLe) (ELocI n_j2) (EInt 2)) (EBin (OpI IAdd) (ELocI n_j2) (EInt 2))
(SFor n_j3 (EUn NegI (EInt 2)) (EBin (CmpI CLe) (ELocI n_j3) (EInt 2)) (EBin (OpI IAdd) (ELocI n_j3) (EInt 4))
(SFor n_j4 (EUn NegI (EInt 2)) (EBin (CmpI CLe) (ELocI n_j4) (EInt 2)) (EBin (OpI IAdd) (ELocI n_j4) (EInt 2))
(SLoc rC n_M (ECall n_amp [(ALit 2); (AVar n_j2); (AVar n_j3); (AVar n_j4)]);,
SLoc rT n_amp2 ((ELocT n_amp2) +t (EUn Pow2T (EUn AbsC (ELocC n_M))))))));,
SReturnT ((ELocT n_amp2) /t (EUn D2T (ELit (3 # 1))))).
(** AWAW::amp2_Aminus: SM/AWAW.cpp 189-202 *)
Definition AWAW_amp2_Aminus : meth := mkMeth n_amp2_Aminus []
(SLoc rT n_amp2 (EUn I2T (EInt 0));,
SDecl rC n_M;,
(SFor n_j2 (EUn NegI (EInt 2)) (EBin (CmpI CLe) (ELocI n_j2) (EInt 2)) (EBin (OpI IAdd) (ELocI n_j2) (EInt 2))
(SFor n_j3 (EUn NegI (EInt 2)) (EBin (CmpI CLe) (ELocI n_j3) (EInt 2)) (EBin (OpI IAdd) (ELocI n_j3) (EInt 4))
(SFor n_j4 (EUn NegI (EInt 2)) (EBin (CmpI CLe) (ELocI n_j4) (EInt 2)) (EBin (OpI IAdd) (ELocI n_j4) (EInt 2))
(SLoc rC n_M (ECall n_amp [(ALit (-2)); (AVar n_j2); (AVar n_j3); (AVar n_j4)]);,
SLoc rT n_amp2 ((ELocT n_amp2) +t (EUn Pow2T (EUn AbsC (ELocC n_M))))))));,
SReturnT ((ELocT n_amp2) /t (EUn D2T (ELit (3 # 1))))).
(** members: SM/include/AWAW.h 26-33; initialisers: SM/AWAW.cpp 32-33 *)
Definition AWAW : cls := mkCls "AWAW"
[(n_e, KT);
(n_MW, KT);
(n_SW, KT);
(n_CW, KT);
(n_WW, KT);
(n_p1, (KPart 0));
(n_p2, (KPart 1));
(n_p3, (KPart 2));
(n_p4, (KPart 3));
(n_propW, KProp);
(n_pDenS, KC);
(n_pDenU, KC);
(n_s12s, KSprod);
(n_a12a, KSprod);
(n_a34a, KSprod);
(n_s34s, KSprod);
(n_a14a, KSprod);
(n_s14s, KSprod);
(n_a13a, KSprod);
(n_s13s, KSprod);
(n_s24s, KSprod);
(n_a24a, KSprod);
(n_s23s, KSprod);
(n_a23a, KSprod);
(n_sqrt2, KT)]
[n_echarge; n_massW; n_sinW; n_widthW]
[(n_e, NT (ELocT n_echarge));
(n_MW, NT (ELocT n_massW));
(n_SW, NT (ELocT n_sinW));
(n_CW, NT (EUn SqrtT ((EUn D2T (ELit (1 # 1))) -t ((ELocT n_sinW) *t (ELocT n_sinW)))));
(n_WW, NT (ELocT n_widthW))]
AWAW_ctor
[AWAW_set_masses; AWAW_set_momenta; AWAW_amp; AWAW_amp2; AWAW_amp2_Aplus; AWAW_amp2_Aminus].

(** AWWh::AWWh: SM/AWWh.cpp 32-56 *)
Definition AWWh_ctor : stmt :=
(SLoc rT n_two (EUn I2T (EInt 2));,
SMemT n_sqrt2 (EUn SqrtT (ELocT n_two));,
SMemT n_CW (EUn SqrtT ((EUn D2T (ELit (1 # 1))) -t ((ELocT n_sinW) *t (ELocT n_sinW))));,
SPropNew n_propW (EMemT n_MW) (EMemT n_WW);,
SParticle 0 (EUn I2T (EInt 0));,
SParticle 1 (EMemT n_MW);,
SParticle 2 (EMemT n_MW);,
SParticle 3 (EMemT n_mh);,
SSprod n_s23s false 1 [] 2;,
SSprod n_a23a true 1 [] 2;,
SSprod n_s12s false 0 [] 1;,
SSprod n_a12a true 0 [] 1;,
SSprod n_s13s false 0 [] 2;,
SSprod n_a13a true 0 [] 2;,
SSprod n_s143a false 0 [3] 2;,
SSprod n_s142a false 0 [3] 1;,
SSprod n_s341a false 2 [3] 0;,
SSprod n_s241a false 1 [3] 0;,
SMemT n_pre ((((EMemT n_sqrt2) *t (EMemT n_e)) *t (EMemT n_e)) /t ((EMemT n_MW) *t (EMemT n_SW)))).
(** AWWh::set_masses: SM/AWWh.cpp 57-66 *)
Definition AWWh_set_masses : meth := mkMeth n_set_masses [(n_massh, PkT); (n_massW, PkT)]
(SMemT n_mh (ELocT n_massh);,
SMemT n_MW (ELocT n_massW);,
SSetMass 1 (EMemT n_MW);,
SSetMass 2 (EMemT n_MW);,
SSetMass 3 (EMemT n_mh);,
SPropMass n_propW (EMemT n_MW);,
SMemT n_pre ((((EMemT n_sqrt2) *t (EMemT n_e)) *t (EMemT n_e)) /t ((EMemT n_MW) *t (EMemT n_SW)))).
(** AWWh::set_momenta: SM/AWWh.cpp 67-93 *)
Definition AWWh_set_momenta : meth := mkMeth n_set_momenta [(n_mom1, PkMom); (n_mom2, PkMom); (n_mom3, PkMom); (n_mom4, PkMom)]
(SSetMomentum 0 n_mom1;,
SSetMomentum 1 n_mom2;,
SSetMomentum 2 n_mom3;,
SSetMomentum 3 n_mom4;,
SUpdate n_s23s;,
SUpdate n_a23a;,
SUpdate n_s12s;,
SUpdate n_a12a;,
SUpdate n_s13s;,
SUpdate n_a13a;,
SUpdate n_s143a;,
SUpdate n_s142a;,
SUpdate n_s341a;,
SUpdate n_s241a;,
SDeclT n_propTP 4;,
SDeclT n_propSP 4;,
(SFor n_j (EInt 0) (EBin (CmpI CLt) (ELocI n_j) (EInt 4)) (EBin (OpI IAdd) (ELocI n_j) (EInt 1))
(SArrT n_propTP (AVar n_j) ((EArrT n_mom1 (AVar n_j)) -t (EArrT n_mom3 (AVar n_j)));,
SArrT n_propSP (AVar n_j) ((EArrT n_mom1 (AVar n_j)) +t (EArrT n_mom2 (AVar n_j)))));,
SMemC n_pDenT (EDen n_propW n_propTP);,
SMemC n_pDenS (EDen n_propW n_propSP)).
(** AWWh::amp: SM/AWWh.cpp 98-137 *)
Definition AWWh_amp : meth := mkMeth n_amp [(n_ds1, PkI); (n_ds2, PkI); (n_ds3, PkI)]
(SLoc rC n_amplitude (EBin OpTTC (EUn I2T (EInt 0)) (EUn I2T (EInt 0)));,
SLoc rT n_one (EUn I2T (EInt 1));,
SDecl rI n_ds3a;,
SDecl rI n_ds3b;,
SDecl rI n_ds2a;,
SDecl rI n_ds2b;,
SLoc rI n_nCombs (ENLoops [(AVar n_ds3); (AVar n_ds2)]);,
SLoc rT n_normFactor (ENorm [(AVar n_ds3); (AVar n_ds2)]);,
(SFor n_i (EInt 0) (EBin (CmpI CLt) (ELocI n_i) (ELocI n_nCombs)) (EBin (OpI IAdd) (ELocI n_i) (EInt 1))
(SSpins [(n_ds3, n_ds3a, n_ds3b); (n_ds2, n_ds2a, n_ds2b)] (AVar n_i);,
(SIf (EBin (CmpI CGt) (ELocI n_ds1) (EInt 0))
(SLoc rC n_amplitude ((ELocC n_amplitude) +c ((((((ELocT n_normFactor) *t (EMemT n_pre)) *tc (EV n_a23a [(AVar n_ds2a); (AVar n_ds3a)])) *c (((((EMemT n_mh) *t (EMemT n_mh)) *tc (EV n_s13s [(AVar n_ds3b)])) *c (EV n_s12s [(AVar n_ds2b)])) -c ((EMemT n_MW) *tc (((EV n_s12s [(AVar n_ds2b)]) *c (EV n_s143a [(AVar n_ds3b)])) -c ((EV n_s13s [(AVar n_ds3b)]) *c (EV n_s142a [(AVar n_ds2b)])))))) /c (EMemC n_pDenT)) /c (EMemC n_pDenS))))
((SIf (EBin (CmpI CLt) (ELocI n_ds1) (EInt 0))
(SLoc rC n_amplitude ((ELocC n_amplitude) +c ((((((ELocT n_normFactor) *t (EMemT n_pre)) *tc (EV n_s23s [(AVar n_ds2a); (AVar n_ds3a)])) *c (((((EMemT n_mh) *t (EMemT n_mh)) *tc (EV n_a13a [(AVar n_ds3b)])) *c (EV n_a12a [(AVar n_ds2b)])) -c ((EMemT n_MW) *tc (((EV n_a12a [(AVar n_ds2b)]) *c (EV n_s341a [(AVar n_ds3b)])) -c ((EV n_a13a [(AVar n_ds3b)]) *c (EV n_s241a [(AVar n_ds2b)])))))) /c (EMemC n_pDenT)) /c (EMemC n_pDenS))))
(SSkip))))));,
SReturnC (ELocC n_amplitude)).
(** AWWh::amp2: SM/AWWh.cpp 140-153 *)
Definition AWWh_amp2 : meth := mkMeth n_amp2 []
(SLoc rT n_amp2 (EUn I2T (EInt 0));,
SDecl rC n_M;,
(SFor n_j1 (EUn NegI (EInt 2)) (EBin (CmpI CLe) (ELocI n_j1) (EInt 2)) (EBin (OpI IAdd) (ELocI n_j1) (EInt 4))
(SFor n_j2 (EUn NegI (EInt 2)) (EBin (CmpI CLe) (ELocI n_j2) (EInt 2)) (EBin (OpI IAdd) (ELocI n_j2) (EInt 2))
(SFor n_j3 (EUn NegI (EInt 2)) (EBin (CmpI CLe) (ELocI n_j3) (EInt 2)) (EBin (OpI IAdd) (ELocI n_j3) (EInt 2))
(SLoc rC n_M (ECall n_amp [(AVar n_j1); (AVar n_j2); (AVar n_j3)]);,
SLoc rT n_amp2 ((ELocT n_amp2) +t (EUn Pow2T (EUn AbsC (ELocC n_M))))))));,
SReturnT ((ELocT n_amp2) /t (EUn D2T (ELit (6 # 1))))).
(** AWWh::amp2_Aplus: SM/AWWh.cpp 156-168 *)
Definition AWWh_amp2_Aplus : meth := mkMeth n_amp2_Aplus []
(SLoc rT n_amp2 (EUn I2T (EInt 0));,
SDecl rC n_M;,
(SFor n_j2 (EUn NegI (EInt 2)) (EBin (CmpI CLe) (ELocI n_j2) (EInt 2)) (EBin (OpI IAdd) (ELocI n_j2) (EInt 2))
(SFor n_j3 (EUn NegI (EInt 2)) (EBin (CmpI CLe) (ELocI n_j3) (EInt 2)) (EBin (OpI IAdd) (ELocI n_j3) (EInt 2))
(SLoc rC n_M (ECall n_amp [(ALit 2); (AVar n_j2); (AVar n_j3)]);,
SLoc rT n_amp2 ((ELocT n_amp2) +t (EUn Pow2T (EUn AbsC (ELocC n_M)))))));,
SReturnT ((ELocT n_amp2) /t (EUn D2T (ELit (3 # 1))))).
(** members: SM/include/AWWh.h 26-36; initialisers: SM/AWWh.cpp 32-33 *)
Definition AWWh : cls := mkCls "AWWh"
[(n_e, KT);
(n_mh, KT);
(n_MW, KT);
(n_SW, KT);
(n_CW, KT);
(n_WW, KT);
(n_p1, (KPart 0));
(n_p2, (KPart 1));
(n_p3, (KPart 2));
(n_p4, (KPart 3));
(n_propW, KProp);
(n_pDenS, KC);
(n_pDenT, KC);
(n_pDenU, KC);
(n_a23a, KSprod);
(n_s23s, KSprod);
(n_a12a, KSprod);
(n_s12s, KSprod);
(n_a13a, KSprod);
(n_s13s, KSprod);
(n_s143a, KSprod);
(n_s142a, KSprod);
(n_s341a, KSprod);
(n_s241a, KSprod);
(n_sqrt2, KT);
(n_pre, KT)]
[n_echarge; n_massh; n_massW; n_sinW; n_widthW]
[(n_e, NT (ELocT n_echarge));
(n_mh, NT (ELocT n_massh));
(n_MW, NT (ELocT n_massW));
(n_SW, NT (ELocT n_sinW));
(n_CW, NT (EUn SqrtT ((EUn D2T (ELit (1 # 1))) -t ((ELocT n_sinW) *t (ELocT n_sinW)))));
(n_WW, NT (ELocT n_widthW))]
AWWh_ctor
[AWWh_set_masses; AWWh_set_momenta; AWWh_amp; AWWh_amp2; AWWh_amp2_Aplus].

(** AWZW::AWZW: SM/AWZW.cpp 32-58 *)
Definition AWZW_ctor : stmt :=
(SLoc rT n_two (EUn I2T (EInt 2));,
SMemT n_sqrt2 (EUn SqrtT (ELocT n_two));,
SMemT n_CW (EUn SqrtT ((EUn D2T (ELit (1 # 1))) -t ((ELocT n_sinW) *t (ELocT n_sinW))));,
SMemT n_MZ ((EMemT n_MW) /t (EMemT n_CW));,
SPropNew n_propW (EMemT n_MW) (EMemT n_WW);,
SParticle 0 (EUn I2T (EInt 0));,
SParticle 1 (EMemT n_MW);,
SParticle 2 (EMemT n_MZ);,
SParticle 3 (EMemT n_MW);,
SSprod n_s12s false 0 [] 1;,
SSprod n_a12a true 0 [] 1;,
SSprod n_s23s false 1 [] 2;,
SSprod n_a23a true 1 [] 2;,
SSprod n_s24s false 1 [] 3;,
SSprod n_a24a true 1 [] 3;,
SSprod n_s34s false 2 [] 3;,
SSprod n_a34a true 2 [] 3;,
SSprod n_s14s false 0 [] 3;,
SSprod n_a14a true 0 [] 3;,
SSprod n_s13s false 0 [] 2;,
SSprod n_a13a true 0 [] 2;,
SMemT n_pre ((((EUn D2T (ELit (2 # 1))) *t (EMemT n_e)) *t (EMemT n_e)) /t ((EMemT n_CW) *t (EMemT n_SW)))).
(** AWZW::set_masses: SM/AWZW.cpp 59-68 *)
Definition AWZW_set_masses : meth := mkMeth n_set_masses [(n_massW, PkT)]
(SMemT n_MW (ELocT n_massW);,
SMemT n_MZ ((EMemT n_MW) /t (EMemT n_CW));,
SSetMass 1 (EMemT n_MW);,
SSetMass 2 (EMemT n_MZ);,
SSetMass 3 (EMemT n_MW);,
SPropMass n_propW (EMemT n_MW);,
SMemT n_pre ((((EUn D2T (ELit (2 # 1))) *t (EMemT n_e)) *t (EMemT n_e)) /t ((EMemT n_CW) *t (EMemT n_SW)))).
(** AWZW::set_momenta: SM/AWZW.cpp 69-96 *)
Definition AWZW_set_momenta : meth := mkMeth n_set_momenta [(n_mom1, PkMom); (n_mom2, PkMom); (n_mom3, PkMom); (n_mom4, PkMom)]
(SSetMomentum 0 n_mom1;,
SSetMomentum 1 n_mom2;,
SSetMomentum 2 n_mom3;,
SSetMomentum 3 n_mom4;,
SUpdate n_s12s;,
SUpdate n_a12a;,
SUpdate n_s23s;,
SUpdate n_a23a;,
SUpdate n_s24s;,
SUpdate n_a24a;,
SUpdate n_s34s;,
SUpdate n_a34a;,
SUpdate n_s14s;,
SUpdate n_a14a;,
SUpdate n_s13s;,
SUpdate n_a13a;,
SDeclT n_propSP 4;,
SDeclT n_propUP 4;,
(SFor n_j (EInt 0) (EBin (CmpI CLt) (ELocI n_j) (EInt 4)) (EBin (OpI IAdd) (ELocI n_j) (EInt 1))
(SArrT n_propSP (AVar n_j) ((EArrT n_mom1 (AVar n_j)) +t (EArrT n_mom2 (AVar n_j)));,
SArrT n_propUP (AVar n_j) ((EArrT n_mom1 (AVar n_j)) -t (EArrT n_mom4 (AVar n_j)))));,
SMemC n_pDenS (EDen n_propW n_propSP);,
SMemC n_pDenU (EDen n_propW n_propUP)).
(** AWZW::amp: SM/AWZW.cpp 101-148 *)
Definition AWZW_amp : meth := mkMeth n_amp [(n_ds1, PkI); (n_ds2, PkI); (n_ds3, PkI); (n_ds4, PkI)]
(SLoc rC n_amplitude (EBin OpTTC (EUn I2T (EInt 0)) (EUn I2T (EInt 0)));,
SDecl rI n_ds3a;,
SDecl rI n_ds3b;,
SDecl rI n_ds4a;,
SDecl rI n_ds4b;,
SDecl rI n_ds2a;,
SDecl rI n_ds2b;,
SLoc rI n_nCombs (ENLoops [(AVar n_ds3); (AVar n_ds4); (AVar n_ds2)]);,
SLoc rT n_normFactor (ENorm [(AVar n_ds3); (AVar n_ds4); (AVar n_ds2)]);,
(SFor n_i (EInt 0) (EBin (CmpI CLt) (ELocI n_i) (ELocI n_nCombs)) (EBin (OpI IAdd) (ELocI n_i) (EInt 1))
(SSpins [(n_ds3, n_ds3a, n_ds3b); (n_ds4, n_ds4a, n_ds4b); (n_ds2, n_ds2a, n_ds2b)] (AVar n_i);,
(SIf (EBin (CmpI CGt) (ELocI n_ds1) (EInt 0))
(SLoc rC n_amplitude ((ELocC n_amplitude) +c (((((ELocT n_normFactor) *t (EMemT n_pre)) *tc (((((((((((EMemT n_CW) *t (EMemT n_CW)) *tc (EV n_s13s [(AVar n_ds3a)])) *c (EV n_s13s [(AVar n_ds3b)])) *c (EV n_a24a [(AVar n_ds2a); (AVar n_ds4a)])) *c (EV n_a24a [(AVar n_ds2b); (AVar n_ds4b)])) +c ((((((EMemT n_CW) *t (EMemT n_CW)) *tc (EV n_s14s [(AVar n_ds4a)])) *c (EV n_s14s [(AVar n_ds4b)])) *c (EV n_a23a [(AVar n_ds2a); (AVar n_ds3a)])) *c (EV n_a23a [(AVar n_ds2b); (AVar n_ds3b)]))) +c ((((((EMemT n_CW) *t (EMemT n_CW)) *tc (EV n_s12s [(AVar n_ds2a)])) *c (EV n_s12s [(AVar n_ds2b)])) *c (EV n_a34a [(AVar n_ds3a); (AVar n_ds4a)])) *c (EV n_a34a [(AVar n_ds3b); (AVar n_ds4b)]))) +c (((((((EMemT n_CW) *t (EMemT n_CW)) -t ((EMemT n_SW) *t (EMemT n_SW))) *tc (EV n_s14s [(AVar n_ds4a)])) *c (EV n_s12s [(AVar n_ds2a)])) *c (EV n_a34a [(AVar n_ds3a); (AVar n_ds4b)])) *c (EV n_a23a [(AVar n_ds2b); (AVar n_ds3b)]))) +c (((((EMemT n_CW) *tc (EV n_s13s [(AVar n_ds3a)])) *c (EV n_s14s [(AVar n_ds4a)])) *c (EV n_a23a [(AVar n_ds2a); (AVar n_ds3b)])) *c (EV n_a24a [(AVar n_ds2b); (AVar n_ds4b)]))) -c (((((EMemT n_CW) *tc (EV n_s13s [(AVar n_ds3a)])) *c (EV n_s12s [(AVar n_ds2a)])) *c (EV n_a34a [(AVar n_ds3b); (AVar n_ds4a)])) *c (EV n_a24a [(AVar n_ds2b); (AVar n_ds4b)])))) /c (EMemC n_pDenU)) /c (EMemC n_pDenS))))
((SIf (EBin (CmpI CLt) (ELocI n_ds1) (EInt 0))
(SLoc rC n_amplitude ((ELocC n_amplitude) +c (((((ELocT n_normFactor) *t (EMemT n_pre)) *tc (((((((((((EMemT n_CW) *t (EMemT n_CW)) *tc (EV n_a13a [(AVar n_ds3a)])) *c (EV n_a13a [(AVar n_ds3b)])) *c (EV n_s24s [(AVar n_ds2a); (AVar n_ds4a)])) *c (EV n_s24s [(AVar n_ds2b); (AVar n_ds4b)])) +c ((((((EMemT n_CW) *t (EMemT n_CW)) *tc (EV n_a14a [(AVar n_ds4a)])) *c (EV n_a14a [(AVar n_ds4b)])) *c (EV n_s23s [(AVar n_ds2a); (AVar n_ds3a)])) *c (EV n_s23s [(AVar n_ds2b); (AVar n_ds3b)]))) +c ((((((EMemT n_CW) *t (EMemT n_CW)) *tc (EV n_a12a [(AVar n_ds2a)])) *c (EV n_a12a [(AVar n_ds2b)])) *c (EV n_s34s [(AVar n_ds3a); (AVar n_ds4a)])) *c (EV n_s34s [(AVar n_ds3b); (AVar n_ds4b)]))) +c (((((((EMemT n_CW) *t (EMemT n_CW)) -t ((EMemT n_SW) *t (EMemT n_SW))) *tc (EV n_a14a [(AVar n_ds4a)])) *c (EV n_a12a [(AVar n_ds2a)])) *c (EV n_s34s [(AVar n_ds3a); (AVar n_ds4b)])) *c (EV n_s23s [(AVar n_ds2b); (AVar n_ds3b)]))) +c (((((EMemT n_CW) *tc (EV n_a13a [(AVar n_ds3a)])) *c (EV n_a14a [(AVar n_ds4a)])) *c (EV n_s23s [(AVar n_ds2a); (AVar n_ds3b)])) *c (EV n_s24s [(AVar n_ds2b); (AVar n_ds4b)]))) -c (((((EMemT n_CW) *tc (EV n_a13a [(AVar n_ds3a)])) *c (EV n_a12a [(AVar n_ds2a)])) *c (EV n_s34s [(AVar n_ds3b); (AVar n_ds4a)])) *c (EV n_s24s [(AVar n_ds2b); (AVar n_ds4b)])))) /c (EMemC n_pDenU)) /c (EMemC n_pDenS))))
(SSkip))))));,
SReturnC (ELocC n_amplitude)).
(** AWZW::amp2: SM/AWZW.cpp 151-165 *)
Definition AWZW_amp2 : meth := mkMeth n_amp2 []
(SLoc rT n_amp2 (EUn I2T (EInt 0));,
SDecl rC n_M;,
(SFor n_j1 (EUn NegI (EInt 2)) (EBin (CmpI CLe) (ELocI n_j1) (EInt 2)) (EBin (OpI IAdd) (ELocI n_j1) (EInt 4))
(SFor n_j2 (EUn NegI (EInt 2)) (EBin (CmpI CLe) (ELocI n_j2) (EInt 2)) (EBin (OpI IAdd) (ELocI n_j2) (EInt 2))
(SFor n_j3 (EUn NegI (EInt 2)) (EBin (CmpI CLe) (ELocI n_j3) (EInt 2)) (EBin (OpI IAdd) (ELocI n_j3) (EInt 2))
(SFor n_j4 (EUn NegI (EInt 2)) (EBin (CmpI CLe) (ELocI n_j4) (EInt 2)) (EBin (OpI IAdd) (ELocI n_j4) (EInt 2))
(SLoc rC n_M (ECall n_amp [(AVar n_j1); (AVar n_j2); (AVar n_j3); (AVar n_j4)]);,
SLoc rT n_amp2 ((ELocT n_amp2) +t (EUn Pow2T (EUn AbsC (ELocC n_M)))))))));,
SReturnT ((ELocT n_amp2) /t (EUn D2T (ELit (6 # 1))))).
(** AWZW::amp2_Aplus: SM/AWZW.cpp 168-181 *)
Definition AWZW_amp2_Aplus : meth := mkMeth n_amp2_Aplus []
(SLoc rT n_amp2 (EUn I2T (EInt 0));,
SDecl rC n_M;,
(SFor n_j2 (EUn NegI (EInt 2)) (EBin (CmpI CLe) (ELocI n_j2) (EInt 2)) (EBin (OpI IAdd) (ELocI n_j2) (EInt 2))
(SFor n_j3 (EUn NegI (EInt 2)) (EBin (CmpI CLe) (ELocI n_j3) (EInt 2)) (EBin (OpI IAdd) (ELocI n_j3) (EInt 2))
(SFor n_j4 (EUn NegI (EInt 2)) (EBin (CmpI CLe) (ELocI n_j4) (EInt 2)) (EBin (OpI IAdd) (ELocI n_j4) (EInt 2))
(SLoc rC n_M (ECall n_amp [(ALit 2); (AVar n_j2); (AVar n_j3); (AVar n_j4)]);,
SLoc rT n_amp2 ((ELocT n_amp2) +t (EUn Pow2T (EUn AbsC (ELocC n_M))))))));,
SReturnT ((ELocT n_amp2) /t (EUn D2T (ELit (3 # 1))))).
(** members: SM/include/AWZW.h 26-34; initialisers: SM/AWZW.cpp 32-33 *)
Definition AWZW : cls := mkCls "AWZW"
[(n_e, KT);
(n_MW, KT);
(n_MZ, KT);
(n_SW, KT);
(n_CW, KT);
(n_WW, KT);
(n_p1, (KPart 0));
(n_p2, (KPart 1));
(n_p3, (KPart 2));
(n_p4, (KPart 3));
(n_propW, KProp);
(n_pDenS, KC);
(n_pDenU, KC);
(n_s12s, KSprod);
(n_a12a, KSprod);
(n_s24s, KSprod);
(n_a24a, KSprod);
(n_s23s, KSprod);
(n_a23a, KSprod);
(n_a34a, KSprod);
(n_s34s, KSprod);
(n_a14a, KSprod);
(n_s14s, KSprod);
(n_a13a, KSprod);
(n_s13s, KSprod);
(n_sqrt2, KT);
(n_pre, KT)]
[n_echarge; n_massW; n_sinW; n_widthW]
[(n_e, NT (ELocT n_echarge));
(n_MW, NT (ELocT n_massW));
(n_SW, NT (ELocT n_sinW));
(n_CW, NT (EUn SqrtT ((EUn D2T (ELit (1 # 1))) -t ((ELocT n_sinW) *t (ELocT n_sinW)))));
(n_WW, NT (ELocT n_widthW))]
AWZW_ctor
[AWZW_set_masses; AWZW_set_momenta; AWZW_amp; AWZW_amp2; AWZW_amp2_Aplus].

(** AWud::AWud: SM/AWud.cpp 32-56 *)
Definition AWud_ctor : stmt :=
(SPropNew n_propW (EMemT n_MW) (EMemT n_WW);,
SPropNew n_propu (EMemT n_mu) (EUn I2T (EInt 0));,
SPropNew n_propd (EMemT n_md) (EUn I2T (EInt 0));,
SParticle 0 (EUn I2T (EInt 0));,
SParticle 1 (EMemT n_MW);,
SParticle 2 (EMemT n_mu);,
SParticle 3 (EMemT n_md);,
SSprod n_s12s false 0 [] 1;,
SSprod n_s13s false 0 [] 2;,
SSprod n_a24a true 1 [] 3;,
SSprod n_s142a false 0 [3] 1;,
SSprod n_s143a false 0 [3] 2;,
SSprod n_a12a true 0 [] 1;,
SSprod n_a14a true 0 [] 3;,
SSprod n_s23s false 1 [] 2;,
SSprod n_s231a false 1 [2] 0;,
SSprod n_s431a false 3 [2] 0;,
SMemT n_pre ((((EUn D2T (EUn SqrtD (ELit (2 # 1)))) *t (EMemT n_e)) *t (EMemT n_e)) /t ((EMemT n_MW) *t (EMemT n_SW)))).
(** AWud::set_masses: SM/AWud.cpp 57-69 *)
Definition AWud_set_masses : meth := mkMeth n_set_masses [(n_massu, PkT); (n_massd, PkT); (n_massW, PkT)]
(SMemT n_mu (ELocT n_massu);,
SMemT n_md (ELocT n_massd);,
SMemT n_MW (ELocT n_massW);,
SSetMass 1 (EMemT n_MW);,
SSetMass 2 (EMemT n_mu);,
SSetMass 3 (EMemT n_md);,
SPropMass n_propW (EMemT n_MW);,
SPropMass n_propu (EMemT n_mu);,
SPropMass n_propd (EMemT n_md);,
SMemT n_pre ((((EUn D2T (EUn SqrtD (ELit (2 # 1)))) *t (EMemT n_e)) *t (EMemT n_e)) /t ((EMemT n_MW) *t (EMemT n_SW)))).
(** AWud::set_momenta: SM/AWud.cpp 70-105 *)
Definition AWud_set_momenta : meth := mkMeth n_set_momenta [(n_mom1, PkMom); (n_mom2, PkMom); (n_mom3, PkMom); (n_mom4, PkMom)]
(SLoc rT n_one (EUn I2T (EInt 1));,
SLoc rT n_two (EUn I2T (EInt 2));,
SLoc rT n_three (EUn I2T (EInt 3));,
SSetMomentum 0 n_mom1;,
SSetMomentum 1 n_mom2;,
SSetMomentum 2 n_mom3;,
SSetMomentum 3 n_mom4;,
SUpdate n_s12s;,
SUpdate n_s13s;,
SUpdate n_a24a;,
SUpdate n_s142a;,
SUpdate n_s143a;,
SUpdate n_a12a;,
SUpdate n_a14a;,
SUpdate n_s23s;,
SUpdate n_s231a;,
SUpdate n_s431a;,
SDeclT n_propSP 4;,
SDeclT n_propTP 4;,
SDeclT n_propUP 4;,
(SFor n_j (EInt 0) (EBin (CmpI CLt) (ELocI n_j) (EInt 4)) (EBin (OpI IAdd) (ELocI n_j) (EInt 1))
(SArrT n_propSP (AVar n_j) ((EArrT n_mom1 (AVar n_j)) +t (EArrT n_mom2 (AVar n_j)));,
SArrT n_propTP (AVar n_j) ((EArrT n_mom1 (AVar n_j)) -t (EArrT n_mom3 (AVar n_j)));,
SArrT n_propUP (AVar n_j) ((EArrT n_mom1 (AVar n_j)) -t (EArrT n_mom4 (AVar n_j)))));,
SMemC n_pDenS (EDen n_propW n_propSP);,
SMemC n_pDenT (EDen n_propu n_propTP);,
SMemC n_pDenU (EDen n_propd n_propUP);,
SMemC n_prop (((EUn NegT (ELocT n_one)) /tc (EMemC n_pDenS)) *c ((((ELocT n_two) /t (ELocT n_three)) /tc (EMemC n_pDenT)) -c (((ELocT n_one) /t (ELocT n_three)) /tc (EMemC n_pDenU))))).
(** AWud::amp: SM/AWud.cpp 110-143 *)
Definition AWud_amp : meth := mkMeth n_amp [(n_ds1, PkI); (n_ds2, PkI); (n_ds3, PkI); (n_ds4, PkI)]
(SLoc rC n_amplitude (EBin OpTTC (EUn I2T (EInt 0)) (EUn I2T (EInt 0)));,
SDecl rI n_ds2a;,
SDecl rI n_ds2b;,
SLoc rI n_nCombs (ENLoops [(AVar n_ds2)]);,
SLoc rT n_normFactor (ENorm [(AVar n_ds2)]);,
(SFor n_i (EInt 0) (EBin (CmpI CLt) (ELocI n_i) (ELocI n_nCombs)) (EBin (OpI IAdd) (ELocI n_i) (EInt 1))
(SSpins [(n_ds2, n_ds2a, n_ds2b)] (AVar n_i);,
(SIf (EBin (CmpI CGt) (ELocI n_ds1) (EInt 0))
(SLoc rC n_amplitude ((ELocC n_amplitude) +c (((((ELocT n_normFactor) *t (EMemT n_pre)) *tc (EV n_a24a [(AVar n_ds2a); (AVar n_ds4)])) *c ((((EUn NegT (EMemT n_MW)) *tc (EV n_s13s [(AVar n_ds3)])) *c (EV n_s142a [(AVar n_ds2b)])) +c ((EV n_s12s [(AVar n_ds2b)]) *c ((((EUn NegT (EMemT n_md)) *t (EMemT n_md)) *tc (EV n_s13s [(AVar n_ds3)])) +c ((EMemT n_mu) *tc (EV n_s143a [(AVar n_ds3)])))))) *c (EMemC n_prop))))
((SIf (EBin (CmpI CLt) (ELocI n_ds1) (EInt 0))
(SLoc rC n_amplitude ((ELocC n_amplitude) +c (((((ELocT n_normFactor) *t (EMemT n_pre)) *tc (EV n_s23s [(AVar n_ds2a); (AVar n_ds3)])) *c ((((EMemT n_MW) *tc (EV n_a14a [(AVar n_ds4)])) *c (EV n_s231a [(AVar n_ds2b)])) +c ((EV n_a12a [(AVar n_ds2b)]) *c ((((EMemT n_mu) *t (EMemT n_mu)) *tc (EV n_a14a [(AVar n_ds4)])) -c ((EMemT n_md) *tc (EV n_s431a [(AVar n_ds4)])))))) *c (EMemC n_prop))))
(SSkip))))));,
SReturnC (ELocC n_amplitude)).
(** AWud::amp2: SM/AWud.cpp 146-163 *)
Definition AWud_amp2 : meth := mkMeth n_amp2 []
(SLoc rT n_three (EUn I2T (EInt 3));,
SLoc rT n_amp2 (EUn I2T (EInt 0));,
SDecl rC n_M;,
(SFor n_j1 (EUn NegI (EInt 2)) (EBin (CmpI CLe) (ELocI n_j1) (EInt 2)) (EBin (OpI IAdd) (ELocI n_j1) (EInt 4))
(SFor n_j2 (EUn NegI (EInt 2)) (EBin (CmpI CLe) (ELocI n_j2) (EInt 2)) (EBin (OpI IAdd) (ELocI n_j2) (EInt 2))
(SFor n_j3 (EUn NegI (EInt 1)) (EBin (CmpI CLe) (ELocI n_j3) (EInt 1)) (EBin (OpI IAdd) (ELocI n_j3) (EInt 2))
(SFor n_j4 (EUn NegI (EInt 1)) (EBin (CmpI CLe) (ELocI n_j4) (EInt 1)) (EBin (OpI IAdd) (ELocI n_j4) (EInt 2))
(SLoc rC n_M (ECall n_amp [(AVar n_j1); (AVar n_j2); (AVar n_j3); (AVar n_j4)]);,
SLoc rT n_amp2 ((ELocT n_amp2) +t ((ELocT n_three) *t (EUn Pow2T (EUn AbsC (ELocC n_M))))))))));,
SReturnT ((ELocT n_amp2) /t (EUn D2T (ELit (6 # 1))))).
(** AWud::amp2_Aplus: SM/AWud.cpp 166-181 *)
Definition AWud_amp2_Aplus : meth := mkMeth n_amp2_Aplus []
(SLoc rT n_three (EUn I2T (EInt 3));,
SLoc rT n_amp2 (EUn I2T (EInt 0));,
SDecl rC n_M;,
(SFor n_j2 (EUn NegI (EInt 2)) (EBin (CmpI CLe) (ELocI n_j2) (EInt 2)) (EBin (OpI IAdd) (ELocI n_j2) (EInt 2))
(SFor n_j3 (EUn NegI (EInt 1)) (EBin (CmpI CLe) (ELocI n_j3) (EInt 1)) (EBin (OpI IAdd) (ELocI n_j3) (EInt 2))
(SFor n_j4 (EUn NegI (EInt 1)) (EBin (CmpI CLe) (ELocI n_j4) (EInt 1)) (EBin (OpI IAdd) (ELocI n_j4) (EInt 2))
(SLoc rC n_M (ECall n_amp [(ALit 1); (AVar n_j2); (AVar n_j3); (AVar n_j4)]);,
SLoc rT n_amp2 ((ELocT n_amp2) +t ((ELocT n_three) *t (EUn Pow2T (EUn AbsC (ELocC n_M)))))))));,
SReturnT ((ELocT n_amp2) /t (ELocT n_three))).
(** members: SM/include/AWud.h 26-34; initialisers: SM/AWud.cpp 32-33 *)
Definition AWud : cls := mkCls "AWud"
[(n_e, KT);
(n_mu, KT);
(n_md, KT);
(n_MW, KT);
(n_SW, KT);
(n_WW, KT);
(n_pre, KT);
(n_p1, (KPart 0));
(n_p2, (KPart 1));
(n_p3, (KPart 2));
(n_p4, (KPart 3));
(n_propW, KProp);
(n_propu, KProp);
(n_propd, KProp);
(n_pDenS, KC);
(n_pDenT, KC);
(n_pDenU, KC);
(n_prop, KC);
(n_s12s, KSprod);
(n_s13s, KSprod);
(n_a24a, KSprod);
(n_s142a, KSprod);
(n_s143a, KSprod);
(n_a12a, KSprod);
(n_a14a, KSprod);
(n_s23s, KSprod);
(n_s231a, KSprod);
(n_s431a, KSprod)]
[n_echarge; n_massu; n_massd; n_massW; n_sinW; n_widthW]
[(n_e, NT (ELocT n_echarge));
(n_mu, NT (ELocT n_massu));
(n_md, NT (ELocT n_massd));
(n_MW, NT (ELocT n_massW));
(n_SW, NT (ELocT n_sinW));
(n_WW, NT (ELocT n_widthW))]
AWud_ctor
[AWud_set_masses; AWud_set_momenta; AWud_amp; AWud_amp2; AWud_amp2_Aplus].

(** AZWW::AZWW: SM/AZWW.cpp 32-58 *)
Definition AZWW_ctor : stmt :=
(SLoc rT n_two (EUn I2T (EInt 2));,
SMemT n_sqrt2 (EUn SqrtT (ELocT n_two));,
SMemT n_CW (EUn SqrtT ((EUn D2T (ELit (1 # 1))) -t ((ELocT n_sinW) *t (ELocT n_sinW))));,
SMemT n_MZ ((EMemT n_MW) /t (EMemT n_CW));,
SPropNew n_propW (EMemT n_MW) (EMemT n_WW);,
SParticle 0 (EUn I2T (EInt 0));,
SParticle 1 (EMemT n_MZ);,
SParticle 2 (EMemT n_MW);,
SParticle 3 (EMemT n_MW);,
SSprod n_s12s false 0 [] 1;,
SSprod n_a12a true 0 [] 1;,
SSprod n_s23s false 1 [] 2;,
SSprod n_a23a true 1 [] 2;,
SSprod n_s24s false 1 [] 3;,
SSprod n_a24a true 1 [] 3;,
SSprod n_s34s false 2 [] 3;,
SSprod n_a34a true 2 [] 3;,
SSprod n_s14s false 0 [] 3;,
SSprod n_a14a true 0 [] 3;,
SSprod n_s13s false 0 [] 2;,
SSprod n_a13a true 0 [] 2;,
SMemT n_pre ((((EUn D2T (ELit (2 # 1))) *t (EMemT n_e)) *t (EMemT n_e)) /t ((EMemT n_CW) *t (EMemT n_SW)))).
(** AZWW::set_masses: SM/AZWW.cpp 59-68 *)
Definition AZWW_set_masses : meth := mkMeth n_set_masses [(n_massW, PkT)]
(SMemT n_MW (ELocT n_massW);,
SMemT n_MZ ((EMemT n_MW) /t (EMemT n_CW));,
SSetMass 1 (EMemT n_MZ);,
SSetMass 2 (EMemT n_MW);,
SSetMass 3 (EMemT n_MW);,
SPropMass n_propW (EMemT n_MW);,
SMemT n_pre ((((EUn D2T (ELit (2 # 1))) *t (EMemT n_e)) *t (EMemT n_e)) /t ((EMemT n_CW) *t (EMemT n_SW)))).
(** AZWW::set_momenta: SM/AZWW.cpp 69-96 *)
Definition AZWW_set_momenta : meth := mkMeth n_set_momenta [(n_mom1, PkMom); (n_mom2, PkMom); (n_mom3, PkMom); (n_mom4, PkMom)]
(SSetMomentum 0 n_mom1;,
SSetMomentum 1 n_mom2;,
SSetMomentum 2 n_mom3;,
SSetMomentum 3 n_mom4;,
SUpdate n_s12s;,
SUpdate n_a12a;,
SUpdate n_s23s;,
SUpdate n_a23a;,
SUpdate n_s24s;,
SUpdate n_a24a;,
SUpdate n_s34s;,
SUpdate n_a34a;,
SUpdate n_s14s;,
SUpdate n_a14a;,
SUpdate n_s13s;,
SUpdate n_a13a;,
SDeclT n_propTP 4;,
SDeclT n_propUP 4;,
(SFor n_j (EInt 0) (EBin (CmpI CLt) (ELocI n_j) (EInt 4)) (EBin (OpI IAdd) (ELocI n_j) (EInt 1))
(SArrT n_propTP (AVar n_j) ((EArrT n_mom1 (AVar n_j)) -t (EArrT n_mom3 (AVar n_j)));,
SArrT n_propUP (AVar n_j) ((EArrT n_mom1 (AVar n_j)) -t (EArrT n_mom4 (AVar n_j)))));,
SMemC n_pDenT (EDen n_propW n_propTP);,
SMemC n_pDenU (EDen n_propW n_propUP)).
(** AZWW::amp: SM/AZWW.cpp 101-146 *)
Definition AZWW_amp : meth := mkMeth n_amp [(n_ds1, PkI); (n_ds2, PkI); (n_ds3, PkI); (n_ds4, PkI)]
(SLoc rC n_amplitude (EBin OpTTC (EUn I2T (EInt 0)) (EUn I2T (EInt 0)));,
SDecl rI n_ds2a;,
SDecl rI n_ds2b;,
SDecl rI n_ds3a;,
SDecl rI n_ds3b;,
SDecl rI n_ds4a;,
SDecl rI n_ds4b;,
SLoc rI n_nCombs (ENLoops [(AVar n_ds2); (AVar n_ds3); (AVar n_ds4)]);,
SLoc rT n_normFactor (ENorm [(AVar n_ds2); (AVar n_ds3); (AVar n_ds4)]);,
(SFor n_i (EInt 0) (EBin (CmpI CLt) (ELocI n_i) (ELocI n_nCombs)) (EBin (OpI IAdd) (ELocI n_i) (EInt 1))
(SSpins [(n_ds2, n_ds2a, n_ds2b); (n_ds3, n_ds3a, n_ds3b); (n_ds4, n_ds4a, n_ds4b)] (AVar n_i);,
(SIf (EBin (CmpI CGt) (ELocI n_ds1) (EInt 0))
(SLoc rC n_amplitude ((ELocC n_amplitude) +c (((((ELocT n_normFactor) *t (EMemT n_pre)) *tc (((((((((((EMemT n_CW) *t (EMemT n_CW)) *tc (EV n_s12s [(AVar n_ds2a)])) *c (EV n_s12s [(AVar n_ds2b)])) *c (EV n_a34a [(AVar n_ds3a); (AVar n_ds4a)])) *c (EV n_a34a [(AVar n_ds3b); (AVar n_ds4b)])) +c ((((((EMemT n_CW) *t (EMemT n_CW)) *tc (EV n_s13s [(AVar n_ds3a)])) *c (EV n_s13s [(AVar n_ds3b)])) *c (EV n_a24a [(AVar n_ds2a); (AVar n_ds4a)])) *c (EV n_a24a [(AVar n_ds2b); (AVar n_ds4b)]))) +c ((((((EMemT n_CW) *t (EMemT n_CW)) *tc (EV n_s14s [(AVar n_ds4a)])) *c (EV n_s14s [(AVar n_ds4b)])) *c (EV n_a23a [(AVar n_ds2a); (AVar n_ds3a)])) *c (EV n_a23a [(AVar n_ds2b); (AVar n_ds3b)]))) +c (((((((EMemT n_CW) *t (EMemT n_CW)) -t ((EMemT n_SW) *t (EMemT n_SW))) *tc (EV n_s13s [(AVar n_ds3a)])) *c (EV n_s14s [(AVar n_ds4a)])) *c (EV n_a23a [(AVar n_ds2a); (AVar n_ds3b)])) *c (EV n_a24a [(AVar n_ds2b); (AVar n_ds4b)]))) -c (((((EMemT n_CW) *tc (EV n_s12s [(AVar n_ds2a)])) *c (EV n_s13s [(AVar n_ds3a)])) *c (EV n_a24a [(AVar n_ds2b); (AVar n_ds4a)])) *c (EV n_a34a [(AVar n_ds3b); (AVar n_ds4b)]))) +c (((((EMemT n_CW) *tc (EV n_s12s [(AVar n_ds2a)])) *c (EV n_s14s [(AVar n_ds4a)])) *c (EV n_a23a [(AVar n_ds2b); (AVar n_ds3a)])) *c (EV n_a34a [(AVar n_ds3b); (AVar n_ds4b)])))) /c (EMemC n_pDenT)) /c (EMemC n_pDenU))))
((SIf (EBin (CmpI CLt) (ELocI n_ds1) (EInt 0))
(SLoc rC n_amplitude ((ELocC n_amplitude) +c (((((ELocT n_normFactor) *t (EMemT n_pre)) *tc (((((((((((EMemT n_CW) *t (EMemT n_CW)) *tc (EV n_a12a [(AVar n_ds2a)])) *c (EV n_a12a [(AVar n_ds2b)])) *c (EV n_s34s [(AVar n_ds3a); (AVar n_ds4a)])) *c (EV n_s34s [(AVar n_ds3b); (AVar n_ds4b)])) +c ((((((EMemT n_CW) *t (EMemT n_CW)) *tc (EV n_a13a [(AVar n_ds3a)])) *c (EV n_a13a [(AVar n_ds3b)])) *c (EV n_s24s [(AVar n_ds2a); (AVar n_ds4a)])) *c (EV n_s24s [(AVar n_ds2b); (AVar n_ds4b)]))) +c ((((((EMemT n_CW) *t (EMemT n_CW)) *tc (EV n_a14a [(AVar n_ds4a)])) *c (EV n_a14a [(AVar n_ds4b)])) *c (EV n_s23s [(AVar n_ds2a); (AVar n_ds3a)])) *c (EV n_s23s [(AVar n_ds2b); (AVar n_ds3b)]))) +c (((((((EMemT n_CW) *t (EMemT n_CW)) -t ((EMemT n_SW) *t (EMemT n_SW))) *tc (EV n_a13a [(AVar n_ds3a)])) *c (EV n_a14a [(AVar n_ds4a)])) *c (EV n_s23s [(AVar n_ds2a); (AVar n_ds3b)])) *c (EV n_s24s [(AVar n_ds2b); (AVar n_ds4b)]))) -c (((((EMemT n_CW) *tc (EV n_a12a [(AVar n_ds2a)])) *c (EV n_a13a [(AVar n_ds3a)])) *c (EV n_s24s [(AVar n_ds2b); (AVar n_ds4a)])) *c (EV n_s34s [(AVar n_ds3b); (AVar n_ds4b)]))) +c (((((EMemT n_CW) *tc (EV n_a12a [(AVar n_ds2a)])) *c (EV n_a14a [(AVar n_ds4a)])) *c (EV n_s23s [(AVar n_ds2b); (AVar n_ds3a)])) *c (EV n_s34s [(AVar n_ds3b); (AVar n_ds4b)])))) /c (EMemC n_pDenT)) /c (EMemC n_pDenU))))
(SSkip))))));,
SReturnC (ELocC n_amplitude)).
(** AZWW::amp2: SM/AZWW.cpp 149-163 *)
Definition AZWW_amp2 : meth := mkMeth n_amp2 []
(SLoc rT n_amp2 (EUn I2T (EInt 0));,
SDecl rC n_M;,
(SFor n_j1 (EUn NegI (EInt 2)) (EBin (CmpI CLe) (ELocI n_j1) (EInt 2)) (EBin (OpI IAdd) (ELocI n_j1) (EInt 4))
(SFor n_j2 (EUn NegI (EInt 2)) (EBin (CmpI CLe) (ELocI n_j2) (EInt 2)) (EBin (OpI IAdd) (ELocI n_j2) (EInt 2))
(SFor n_j3 (EUn NegI (EInt 2)) (EBin (CmpI CLe) (ELocI n_j3) (EInt 2)) (EBin (OpI IAdd) (ELocI n_j3) (EInt 2))
(SFor n_j4 (EUn NegI (EInt 2)) (EBin (CmpI CLe) (ELocI n_j4) (EInt 2)) (EBin (OpI IAdd) (ELocI n_j4) (EInt 2))
(SLoc rC n_M (ECall n_amp [(AVar n_j1); (AVar n_j2); (AVar n_j3); (AVar n_j4)]);,
SLoc rT n_amp2 ((ELocT n_amp2) +t (EUn Pow2T (EUn AbsC (ELocC n_M)))))))));,
SReturnT ((ELocT n_amp2) /t (EUn D2T (ELit (6 # 1))))).
(** AZWW::amp2_Aplus: SM/AZWW.cpp 166-179 *)
Definition AZWW_amp2_Aplus : meth := mkMeth n_amp2_Aplus []
(SLoc rT n_amp2 (EUn I2T (EInt 0));,
SDecl rC n_M;,
(SFor n_j2 (EUn NegI (EInt 2)) (EBin (CmpI CLe) (ELocI n_j2) (EInt 2)) (EBin (OpI IAdd) (ELocI n_j2) (EInt 2))
(SFor n_j3 (EUn NegI (EInt 2)) (EBin (CmpI CLe) (ELocI n_j3) (EInt 2)) (EBin (OpI IAdd) (ELocI n_j3) (EInt 2))
(SFor n_j4 (EUn NegI (EInt 2)) (EBin (CmpI CLe) (ELocI n_j4) (EInt 2)) (EBin (OpI IAdd) (ELocI n_j4) (EInt 2))
(SLoc rC n_M (ECall n_amp [(ALit 2); (AVar n_j2); (AVar n_j3); (AVar n_j4)]);,
SLoc rT n_amp2 ((ELocT n_amp2) +t (EUn Pow2T (EUn AbsC (ELocC n_M))))))));,
SReturnT ((ELocT n_amp2) /t (EUn D2T (ELit (3 # 1))))).
(** members: SM/include/AZWW.h 26-34; initialisers: SM/AZWW.cpp 32-33 *)
Definition AZWW : cls := mkCls "AZWW"
[(n_e, KT);
(n_MW, KT);
(n_MZ, KT);
(n_SW, KT);
(n_CW, KT);
(n_WW, KT);
(n_p1, (KPart 0));
(n_p2, (KPart 1));
(n_p3, (KPart 2));
(n_p4, (KPart 3));
(n_propW, KProp);
(n_pDenT, KC);
(n_pDenU, KC);
(n_s12s, KSprod);
(n_a12a, KSprod);
(n_s24s, KSprod);
(n_a24a, KSprod);
(n_s23s, KSprod);
(n_a23a, KSprod);
(n_a34a, KSprod);
(n_s34s, KSprod);
(n_a14a, KSprod);
(n_s14s, KSprod);
(n_a13a, KSprod);
(n_s13s, KSprod);
(n_sqrt2, KT);
(n_pre, KT)]
[n_echarge; n_massW; n_sinW; n_widthW]
[(n_e, NT (ELocT n_echarge));
(n_MW, NT (ELocT n_massW));
(n_SW, NT (ELocT n_sinW));
(n_CW, NT (EUn SqrtT ((EUn D2T (ELit (1 # 1))) -t ((ELocT n_sinW) *t (ELocT n_sinW)))));
(n_WW, NT (ELocT n_widthW))]
AZWW_ctor
[AZWW_set_masses; AZWW_set_momenta; AZWW_amp; AZWW_amp2; AZWW_amp2_Aplus].

(** AZdd::AZdd: SM/AZdd.cpp 32-59 *)
Definition AZdd_ctor : stmt :=
(SLoc rT n_two (EUn I2T (EInt 2));,
SMemT n_sqrt2 (EUn SqrtT (ELocT n_two));,
SMemT n_MZ ((EMemT n_MW) /t (EMemT n_CW));,
SParticle 0 (EUn I2T (EInt 0));,
SParticle 1 (EMemT n_MZ);,
SParticle 2 (EMemT n_md);,
SParticle 3 (EMemT n_md);,
SSprod n_s12s false 0 [] 1;,
SSprod n_a12a true 0 [] 1;,
SSprod n_s23s false 1 [] 2;,
SSprod n_a23a true 1 [] 2;,
SSprod n_s13s false 0 [] 2;,
SSprod n_a13a true 0 [] 2;,
SSprod n_s24s false 1 [] 3;,
SSprod n_a24a true 1 [] 3;,
SSprod n_s14s false 0 [] 3;,
SSprod n_a14a true 0 [] 3;,
SSprod n_s1341s false 0 [2; 3] 0;,
SSprod n_a1341a true 0 [2; 3] 0;,
SMemT n_preTU (((((EUn D2T (ELit (2 # 1))) *t (EMemT n_e)) *t (EMemT n_e)) *t (EMemT n_Qd)) /t (((EUn D2T (ELit (2 # 1))) *t (EMemT n_MW)) *t (EMemT n_SW)));,
SMemT n_gL (((((EUn D2T (EUn NegD (ELit (2 # 1)))) *t (EMemT n_Qd)) *t (EMemT n_SW)) *t (EMemT n_SW)) -t (EUn D2T (ELit (1 # 1))));,
SMemT n_gR ((((EUn D2T (EUn NegD (ELit (2 # 1)))) *t (EMemT n_Qd)) *t (EMemT n_SW)) *t (EMemT n_SW))).
(** AZdd::set_masses: SM/AZdd.cpp 60-71 *)
Definition AZdd_set_masses : meth := mkMeth n_set_masses [(n_massd, PkT); (n_massW, PkT)]
(SMemT n_md (ELocT n_massd);,
SMemT n_MW (ELocT n_massW);,
SMemT n_MZ ((EMemT n_MW) /t (EMemT n_CW));,
SSetMass 0 (EUn I2T (EInt 0));,
SSetMass 1 (EMemT n_MZ);,
SSetMass 2 (EMemT n_md);,
SSetMass 3 (EMemT n_md);,
SPropMass n_prope (EMemT n_md);,
SMemT n_preTU (((((EUn D2T (ELit (2 # 1))) *t (EMemT n_e)) *t (EMemT n_e)) *t (EMemT n_Qd)) /t (((EUn D2T (ELit (2 # 1))) *t (EMemT n_MW)) *t (EMemT n_SW)))).
(** AZdd::set_momenta: SM/AZdd.cpp 72-100 *)
Definition AZdd_set_momenta : meth := mkMeth n_set_momenta [(n_mom1, PkMom); (n_mom2, PkMom); (n_mom3, PkMom); (n_mom4, PkMom)]
(SSetMomentum 0 n_mom1;,
SSetMomentum 1 n_mom2;,
SSetMomentum 2 n_mom3;,
SSetMomentum 3 n_mom4;,
SUpdate n_s12s;,
SUpdate n_a12a;,
SUpdate n_s23s;,
SUpdate n_a23a;,
SUpdate n_s13s;,
SUpdate n_a13a;,
SUpdate n_s24s;,
SUpdate n_a24a;,
SUpdate n_s14s;,
SUpdate n_a14a;,
SUpdate n_s1341s;,
SUpdate n_a1341a;,
SDeclT n_propTP 4;,
SDeclT n_propUP 4;,
(SFor n_j (EInt 0) (EBin (CmpI CLt) (ELocI n_j) (EInt 4)) (EBin (OpI IAdd) (ELocI n_j) (EInt 1))
(SArrT n_propTP (AVar n_j) ((EArrT n_mom1 (AVar n_j)) -t (EArrT n_mom3 (AVar n_j)));,
SArrT n_propUP (AVar n_j) ((EArrT n_mom1 (AVar n_j)) -t (EArrT n_mom4 (AVar n_j)))));,
SMemC n_pDenT (EDen n_prope n_propTP);,
SMemC n_pDenU (EDen n_prope n_propUP)).
(** AZdd::amp: SM/AZdd.cpp 105-149 *)
Definition AZdd_amp : meth := mkMeth n_amp [(n_ds1, PkI); (n_ds2, PkI); (n_ds3, PkI); (n_ds4, PkI)]
(SLoc rC n_amplitude (EBin OpTTC (EUn I2T (EInt 0)) (EUn I2T (EInt 0)));,
SDecl rI n_ds2a;,
SDecl rI n_ds2b;,
SLoc rT n_two (EUn I2T (EInt 2));,
SLoc rI n_nCombs (ENLoops [(AVar n_ds2)]);,
SLoc rT n_normFactor (ENorm [(AVar n_ds2)]);,
(SFor n_i (EInt 0) (EBin (CmpI CLt) (ELocI n_i) (ELocI n_nCombs)) (EBin (OpI IAdd) (ELocI n_i) (EInt 1))
(SSpins [(n_ds2, n_ds2a, n_ds2b)] (AVar n_i);,
(SIf (EBin (CmpI CGt) (ELocI n_ds1) (EInt 0))
(SLoc rC n_amplitude ((ELocC n_amplitude) +c ((((((ELocT n_normFactor) *t (EMemT n_preTU)) *tc (EV n_s1341s [])) *c ((((EMemT n_gR) *tc (EV n_s24s [(AVar n_ds2a); (AVar n_ds4)])) *c (EV n_a23a [(AVar n_ds2b); (AVar n_ds3)])) +c (((EMemT n_gL) *tc (EV n_s23s [(AVar n_ds2a); (AVar n_ds3)])) *c (EV n_a24a [(AVar n_ds2b); (AVar n_ds4)])))) /c (EMemC n_pDenT)) /c (EMemC n_pDenU)));,
SLoc rC n_amplitude ((ELocC n_amplitude) +c ((((ELocT n_normFactor) *t (EMemT n_preTU)) *tc (EV n_s12s [(AVar n_ds2a)])) *c (((((EMemT n_gR) *tc (EV n_s14s [(AVar n_ds4)])) *c (EV n_a23a [(AVar n_ds2b); (AVar n_ds3)])) /c (EMemC n_pDenU)) -c ((((EMemT n_gL) *tc (EV n_s13s [(AVar n_ds3)])) *c (EV n_a24a [(AVar n_ds2b); (AVar n_ds4)])) /c (EMemC n_pDenT))))))
(SIf (EBin (CmpI CLt) (ELocI n_ds1) (EInt 0))
(SLoc rC n_amplitude ((ELocC n_amplitude) +c ((((((ELocT n_normFactor) *t (EMemT n_preTU)) *tc (EV n_a1341a [])) *c ((((EMemT n_gR) *tc (EV n_s24s [(AVar n_ds2a); (AVar n_ds4)])) *c (EV n_a23a [(AVar n_ds2b); (AVar n_ds3)])) +c (((EMemT n_gL) *tc (EV n_s23s [(AVar n_ds2a); (AVar n_ds3)])) *c (EV n_a24a [(AVar n_ds2b); (AVar n_ds4)])))) /c (EMemC n_pDenT)) /c (EMemC n_pDenU)));,
SLoc rC n_amplitude ((ELocC n_amplitude) +c ((((ELocT n_normFactor) *t (EMemT n_preTU)) *tc (EV n_a12a [(AVar n_ds2a)])) *c (((((EMemT n_gL) *tc (EV n_a14a [(AVar n_ds4)])) *c (EV n_s23s [(AVar n_ds2b); (AVar n_ds3)])) /c (EMemC n_pDenU)) -c ((((EMemT n_gR) *tc (EV n_a13a [(AVar n_ds3)])) *c (EV n_s24s [(AVar n_ds2b); (AVar n_ds4)])) /c (EMemC n_pDenT))))))
(SSkip)))));,
SReturnC (ELocC n_amplitude)).
(** AZdd::amp2: SM/AZdd.cpp 152-166 *)
Definition AZdd_amp2 : meth := mkMeth n_amp2 []
(SLoc rT n_amp2 (EUn I2T (EInt 0));,
SDecl rC n_M;,
(SFor n_j1 (EUn NegI (EInt 2)) (EBin (CmpI CLe) (ELocI n_j1) (EInt 2)) (EBin (OpI IAdd) (ELocI n_j1) (EInt 4))
(SFor n_j2 (EUn NegI (EInt 2)) (EBin (CmpI CLe) (ELocI n_j2) (EInt 2)) (EBin (OpI IAdd) (ELocI n_j2) (EInt 2))
(SFor n_j3 (EUn NegI (EInt 1)) (EBin (CmpI CLe) (ELocI n_j3) (EInt 1)) (EBin (OpI IAdd) (ELocI n_j3) (EInt 2))
(SFor n_j4 (EUn NegI (EInt 1)) (EBin (CmpI CLe) (ELocI n_j4) (EInt 1)) (EBin (OpI IAdd) (ELocI n_j4) (EInt 2))
(SLoc rC n_M (ECall n_amp [(AVar n_j1); (AVar n_j2); (AVar n_j3); (AVar n_j4)]);,
SLoc rT n_amp2 ((ELocT n_amp2) +t ((EUn D2T (ELit (3 # 1))) *t (EUn Pow2T (EUn AbsC (ELocC n_M))))))))));,
SReturnT ((ELocT n_amp2) /t (EUn D2T (ELit (6 # 1))))).
(** AZdd::amp2_Aplus: SM/AZdd.cpp 168-181 *)
Definition AZdd_amp2_Aplus : meth := mkMeth n_amp2_Aplus []
(SLoc rT n_amp2 (EUn I2T (EInt 0));,
SDecl rC n_M;,
(SFor n_j2 (EUn NegI (EInt 2)) (EBin (CmpI CLe) (ELocI n_j2) (EInt 2)) (EBin (OpI IAdd) (ELocI n_j2) (EInt 2))
(SFor n_j3 (EUn NegI (EInt 1)) (EBin (CmpI CLe) (ELocI n_j3) (EInt 1)) (EBin (OpI IAdd) (ELocI n_j3) (EInt 2))
(SFor n_j4 (EUn NegI (EInt 1)) (EBin (CmpI CLe) (ELocI n_j4) (EInt 1)) (EBin (OpI IAdd) (ELocI n_j4) (EInt 2))
(SLoc rC n_M (ECall n_amp [(ALit 2); (AVar n_j2); (AVar n_j3); (AVar n_j4)]);,
SLoc rT n_amp2 ((ELocT n_amp2) +t ((EUn D2T (ELit (3 # 1))) *t (EUn Pow2T (EUn AbsC (ELocC n_M)))))))));,
SReturnT ((ELocT n_amp2) /t (EUn D2T (ELit (3 # 1))))).
(** AZdd::amp2_Aminus: SM/AZdd.cpp 183-196 *)
Definition AZdd_amp2_Aminus : meth := mkMeth n_amp2_Aminus []
(SLoc rT n_amp2 (EUn I2T (EInt 0));,
SDecl rC n_M;,
(SFor n_j2 (EUn NegI (EInt 2)) (EBin (CmpI CLe) (ELocI n_j2) (EInt 2)) (EBin (OpI IAdd) (ELocI n_j2) (EInt 2))
(SFor n_j3 (EUn NegI (EInt 1)) (EBin (CmpI CLe) (ELocI n_j3) (EInt 1)) (EBin (OpI IAdd) (ELocI n_j3) (EInt 2))
(SFor n_j4 (EUn NegI (EInt 1)) (EBin (CmpI CLe) (ELocI n_j4) (EInt 1)) (EBin (OpI IAdd) (ELocI n_j4) (EInt 2))
(SLoc rC n_M (ECall n_amp [(ALit (-2)); (AVar n_j2); (AVar n_j3); (AVar n_j4)]);,
SLoc rT n_amp2 ((ELocT n_amp2) +t ((EUn D2T (ELit (3 # 1))) *t (EUn Pow2T (EUn AbsC (ELocC n_M)))))))));,
SReturnT ((ELocT n_amp2) /t (EUn D2T (ELit (3 # 1))))).
(** members: SM/include/AZdd.h 26-36; initialisers: SM/AZdd.cpp 32-33 *)
Definition AZdd : cls := mkCls "AZdd"
[(n_e, KT);
(n_Qd, KT);
(n_md, KT);
(n_MW, KT);
(n_SW, KT);
(n_CW, KT);
(n_MZ, KT);
(n_p1, (KPart 0));
(n_p2, (KPart 1));
(n_p3, (KPart 2));
(n_p4, (KPart 3));
(n_prope, KProp);
(n_pDenT, KC);
(n_pDenU, KC);
(n_s12s, KSprod);
(n_a12a, KSprod);
(n_s23s, KSprod);
(n_a23a, KSprod);
(n_s13s, KSprod);
(n_a13a, KSprod);
(n_s24s, KSprod);
(n_a24a, KSprod);
(n_s14s, KSprod);
(n_a14a, KSprod);
(n_s1341s, KSprod);
(n_a1341a, KSprod);
(n_sqrt2, KT);
(n_preTU, KT);
(n_preh, KT);
(n_gL, KT);
(n_gR, KT)]
[n_echarge; n_massd; n_massW; n_sinW]
[(n_e, NT (ELocT n_echarge));
(n_Qd, NT (EUn D2T ((EUn NegD (ELit (1 # 1))) /d (ELit (3 # 1)))));
(n_md, NT (ELocT n_massd));
(n_MW, NT (ELocT n_massW));
(n_SW, NT (ELocT n_sinW));
(n_CW, NT (EUn SqrtT ((EUn D2T (ELit (1 # 1))) -t ((ELocT n_sinW) *t (ELocT n_sinW)))));
(n_MZ, NT ((ELocT n_massW) /t (EMemT n_CW)));
(n_prope, NProp (ELocT n_massd) (EUn I2T (EInt 0)))]
AZdd_ctor
[AZdd_set_masses; AZdd_set_momenta; AZdd_amp; AZdd_amp2; AZdd_amp2_Aplus; AZdd_amp2_Aminus].

(** AZee::AZee: SM/AZee.cpp 32-59 *)
Definition AZee_ctor : stmt :=
(SLoc rT n_two (EUn I2T (EInt 2));,
SMemT n_sqrt2 (EUn SqrtT (ELocT n_two));,
SMemT n_MZ ((EMemT n_MW) /t (EMemT n_CW));,
SParticle 0 (EUn I2T (EInt 0));,
SParticle 1 (EMemT n_MZ);,
SParticle 2 (EMemT n_me);,
SParticle 3 (EMemT n_me);,
SSprod n_s12s false 0 [] 1;,
SSprod n_a12a true 0 [] 1;,
SSprod n_s23s false 1 [] 2;,
SSprod n_a23a true 1 [] 2;,
SSprod n_s13s false 0 [] 2;,
SSprod n_a13a true 0 [] 2;,
SSprod n_s24s false 1 [] 3;,
SSprod n_a24a true 1 [] 3;,
SSprod n_s14s false 0 [] 3;,
SSprod n_a14a true 0 [] 3;,
SSprod n_s1341s false 0 [2; 3] 0;,
SSprod n_a1341a true 0 [2; 3] 0;,
SMemT n_preTU ((((EUn D2T (ELit (2 # 1))) *t (EMemT n_e)) *t (EMemT n_e)) /t (((EUn D2T (ELit (2 # 1))) *t (EMemT n_MW)) *t (EMemT n_SW)));,
SMemT n_gL ((((EUn D2T (ELit (2 # 1))) *t (EMemT n_SW)) *t (EMemT n_SW)) -t (EUn D2T (ELit (1 # 1))));,
SMemT n_gR (((EUn D2T (ELit (2 # 1))) *t (EMemT n_SW)) *t (EMemT n_SW))).
(** AZee::set_masses: SM/AZee.cpp 60-71 *)
Definition AZee_set_masses : meth := mkMeth n_set_masses [(n_masse, PkT); (n_massW, PkT)]
(SMemT n_me (ELocT n_masse);,
SMemT n_MW (ELocT n_massW);,
SMemT n_MZ ((EMemT n_MW) /t (EMemT n_CW));,
SSetMass 0 (EUn I2T (EInt 0));,
SSetMass 1 (EMemT n_MZ);,
SSetMass 2 (EMemT n_me);,
SSetMass 3 (EMemT n_me);,
SPropMass n_prope (EMemT n_me);,
SMemT n_preTU ((((EUn D2T (ELit (2 # 1))) *t (EMemT n_e)) *t (EMemT n_e)) /t (((EUn D2T (ELit (2 # 1))) *t (EMemT n_MW)) *t (EMemT n_SW)))).
(** AZee::set_momenta: SM/AZee.cpp 72-100 *)
Definition AZee_set_momenta : meth := mkMeth n_set_momenta [(n_mom1, PkMom); (n_mom2, PkMom); (n_mom3, PkMom); (n_mom4, PkMom)]
(SSetMomentum 0 n_mom1;,
SSetMomentum 1 n_mom2;,
SSetMomentum 2 n_mom3;,
SSetMomentum 3 n_mom4;,
SUpdate n_s12s;,
SUpdate n_a12a;,
SUpdate n_s23s;,
SUpdate n_a23a;,
SUpdate n_s13s;,
SUpdate n_a13a;,
SUpdate n_s24s;,
SUpdate n_a24a;,
SUpdate n_s14s;,
SUpdate n_a14a;,
SUpdate n_s1341s;,
SUpdate n_a1341a;,
SDeclT n_propTP 4;,
SDeclT n_propUP 4;,
(SFor n_j (EInt 0) (EBin (CmpI CLt) (ELocI n_j) (EInt 4)) (EBin (OpI IAdd) (ELocI n_j) (EInt 1))
(SArrT n_propTP (AVar n_j) ((EArrT n_mom1 (AVar n_j)) -t (EArrT n_mom3 (AVar n_j)));,
SArrT n_propUP (AVar n_j) ((EArrT n_mom1 (AVar n_j)) -t (EArrT n_mom4 (AVar n_j)))));,
SMemC n_pDenT (EDen n_prope n_propTP);,
SMemC n_pDenU (EDen n_prope n_propUP)).
(** AZee::amp: SM/AZee.cpp 105-149 *)
Definition AZee_amp : meth := mkMeth n_amp [(n_ds1, PkI); (n_ds2, PkI); (n_ds3, PkI); (n_ds4, PkI)]
(SLoc rC n_amplitude (EBin OpTTC (EUn I2T (EInt 0)) (EUn I2T (EInt 0)));,
SDecl rI n_ds2a;,
SDecl rI n_ds2b;,
SLoc rT n_two (EUn I2T (EInt 2));,
SLoc rI n_nCombs (ENLoops [(AVar n_ds2)]);,
SLoc rT n_normFactor (ENorm [(AVar n_ds2)]);,
(SFor n_i (EInt 0) (EBin (CmpI CLt) (ELocI n_i) (ELocI n_nCombs)) (EBin (OpI IAdd) (ELocI n_i) (EInt 1))
(SSpins [(n_ds2, n_ds2a, n_ds2b)] (AVar n_i);,
(SIf (EBin (CmpI CGt) (ELocI n_ds1) (EInt 0))
(SLoc rC n_amplitude ((ELocC n_amplitude) +c ((((((ELocT n_normFactor) *t (EMemT n_preTU)) *tc (EV n_s1341s [])) *c ((((EMemT n_gR) *tc (EV n_s24s [(AVar n_ds2a); (AVar n_ds4)])) *c (EV n_a23a [(AVar n_ds2b); (AVar n_ds3)])) +c (((EMemT n_gL) *tc (EV n_s23s [(AVar n_ds2a); (AVar n_ds3)])) *c (EV n_a24a [(AVar n_ds2b); (AVar n_ds4)])))) /c (EMemC n_pDenT)) /c (EMemC n_pDenU)));,
SLoc rC n_amplitude ((ELocC n_amplitude) +c ((((ELocT n_normFactor) *t (EMemT n_preTU)) *tc (EV n_s12s [(AVar n_ds2a)])) *c (((((EMemT n_gR) *tc (EV n_s14s [(AVar n_ds4)])) *c (EV n_a23a [(AVar n_ds2b); (AVar n_ds3)])) /c (EMemC n_pDenU)) -c ((((EMemT n_gL) *tc (EV n_s13s [(AVar n_ds3)])) *c (EV n_a24a [(AVar n_ds2b); (AVar n_ds4)])) /c (EMemC n_pDenT))))))
(SIf (EBin (CmpI CLt) (ELocI n_ds1) (EInt 0))
(SLoc rC n_amplitude ((ELocC n_amplitude) +c ((((((ELocT n_normFactor) *t (EMemT n_preTU)) *tc (EV n_a1341a [])) *c ((((EMemT n_gR) *tc (EV n_s24s [(AVar n_ds2a); (AVar n_ds4)])) *c (EV n_a23a [(AVar n_ds2b); (AVar n_ds3)])) +c (((EMemT n_gL) *tc (EV n_s23s [(AVar n_ds2a); (AVar n_ds3)])) *c (EV n_a24a [(AVar n_ds2b); (AVar n_ds4)])))) /c (EMemC n_pDenT)) /c (EMemC n_pDenU)));,
SLoc rC n_amplitude ((ELocC n_amplitude) +c ((((ELocT n_normFactor) *t (EMemT n_preTU)) *tc (EV n_a12a [(AVar n_ds2a)])) *c (((((EMemT n_gL) *tc (EV n_a14a [(AVar n_ds4)])) *c (EV n_s23s [(AVar n_ds2b); (AVar n_ds3)])) /c (EMemC n_pDenU)) -c ((((EMemT n_gR) *tc (EV n_a13a [(AVar n_ds3)])) *c (EV n_s24s [(AVar n_ds2b); (AVar n_ds4)])) /c (EMemC n_pDenT))))))
(SSkip)))));,
SReturnC (ELocC n_amplitude)).
(** AZee::amp2: SM/AZee.cpp 152-166 *)
Definition AZee_amp2 : meth := mkMeth n_amp2 []
(SLoc rT n_amp2 (EUn I2T (EInt 0));,
SDecl rC n_M;,
(SFor n_j1 (EUn NegI (EInt 2)) (EBin (CmpI CLe) (ELocI n_j1) (EInt 2)) (EBin (OpI IAdd) (ELocI n_j1) (EInt 4))
(SFor n_j2 (EUn NegI (EInt 2)) (EBin (CmpI CLe) (ELocI n_j2) (EInt 2)) (EBin (OpI IAdd) (ELocI n_j2) (EInt 2))
(SFor n_j3 (EUn NegI (EInt 1)) (EBin (CmpI CLe) (ELocI n_j3) (EInt 1)) (EBin (OpI IAdd) (ELocI n_j3) (EInt 2))
(SFor n_j4 (EUn NegI (EInt 1)) (EBin (CmpI CLe) (ELocI n_j4) (EInt 1)) (EBin (OpI IAdd) (ELocI n_j4) (EInt 2))
(SLoc rC n_M (ECall n_amp [(AVar n_j1); (AVar n_j2); (AVar n_j3); (AVar n_j4)]);,
SLoc rT n_amp2 ((ELocT n_amp2) +t (EUn Pow2T (EUn AbsC (ELocC n_M)))))))));,
SReturnT ((ELocT n_amp2) /t (EUn D2T (ELit (6 # 1))))).
(** AZee::amp2_Aplus: SM/AZee.cpp 168-181 *)
Definition AZee_amp2_Aplus : meth := mkMeth n_amp2_Aplus []
(SLoc rT n_amp2 (EUn I2T (EInt 0));,
SDecl rC n_M;,
(SFor n_j2 (EUn NegI (EInt 2)) (EBin (CmpI CLe) (ELocI n_j2) (EInt 2)) (EBin (OpI IAdd) (ELocI n_j2) (EInt 2))
(SFor n_j3 (EUn NegI (EInt 1)) (EBin (CmpI CLe) (ELocI n_j3) (EInt 1)) (EBin (OpI IAdd) (ELocI n_j3) (EInt 2))
(SFor n_j4 (EUn NegI (EInt 1)) (EBin (CmpI CLe) (ELocI n_j4) (EInt 1)) (EBin (OpI IAdd) (ELocI n_j4) (EInt 2))
(SLoc rC n_M (ECall n_amp [(ALit 2); (AVar n_j2); (AVar n_j3); (AVar n_j4)]);,
SLoc rT n_amp2 ((ELocT n_amp2) +t (EUn Pow2T (EUn AbsC (ELocC n_M))))))));,
SReturnT ((ELocT n_amp2) /t (EUn D2T (ELit (3 # 1))))).
(** AZee::amp2_Aminus: SM/AZee.cpp 183-196 *)
Definition AZee_amp2_Aminus : meth := mkMeth n_amp2_Aminus []
(SLoc rT n_amp2 (EUn I2T (EInt 0));,
SDecl rC n_M;,
(SFor n_j2 (EUn NegI (EInt 2)) (EBin (CmpI CLe) (ELocI n_j2) (EInt 2)) (EBin (OpI IAdd) (ELocI n_j2) (EInt 2))
(SFor n_j3 (EUn NegI (EInt 1)) (EBin (CmpI CLe) (ELocI n_j3) (EInt 1)) (EBin (OpI IAdd) (ELocI n_j3) (EInt 2))
(SFor n_j4 (EUn NegI (EInt 1)) (EBin (CmpI CLe) (ELocI n_j4) (EInt 1)) (EBin (OpI IAdd) (ELocI n_j4) (EInt 2))
(SLoc rC n_M (ECall n_amp [(ALit (-2)); (AVar n_j2); (AVar n_j3); (AVar n_j4)]);,
SLoc rT n_amp2 ((ELocT n_amp2) +t (EUn Pow2T (EUn AbsC (ELocC n_M))))))));,
SReturnT ((ELocT n_amp2) /t (EUn D2T (ELit (3 # 1))))).
(** members: SM/include/AZee.h 26-36; initialisers: SM/AZee.cpp 32-33 *)
Definition AZee : cls := mkCls "AZee"
[(n_e, KT);
(n_me, KT);
(n_MW, KT);
(n_SW, KT);
(n_CW, KT);
(n_MZ, KT);
(n_p1, (KPart 0));
(n_p2, (KPart 1));
(n_p3, (KPart 2));
(n_p4, (KPart 3));
(n_prope, KProp);
(n_pDenT, KC);
(n_pDenU, KC);
(n_s12s, KSprod);
(n_a12a, KSprod);
(n_s23s, KSprod);
(n_a23a, KSprod);
(n_s13s, KSprod);
(n_a13a, KSprod);
(n_s24s, KSprod);
(n_a24a, KSprod);
(n_s14s, KSprod);
(n_a14a, KSprod);
(n_s1341s, KSprod);
(n_a1341a, KSprod);
(n_sqrt2, KT);
(n_preTU, KT);
(n_preh, KT);
(n_gL, KT);
(n_gR, KT)]
[n_echarge; n_masse; n_massW; n_sinW]
[(n_e, NT (ELocT n_echarge));
(n_me, NT (ELocT n_masse));
(n_MW, NT (ELocT n_massW));
(n_SW, NT (ELocT n_sinW));
(n_CW, NT (EUn SqrtT ((EUn D2T (ELit (1 # 1))) -t ((ELocT n_sinW) *t (ELocT n_sinW)))));
(n_MZ, NT ((ELocT n_massW) /t (EMemT n_CW)));
(n_prope, NProp (ELocT n_masse) (EUn I2T (EInt 0)))]
AZee_ctor
[AZee_set_masses; AZee_set_momenta; AZee_amp; AZee_amp2; AZee_amp2_Aplus; AZee_amp2_Aminus].

(** AZuu::AZuu: SM/AZuu.cpp 32-64 *)
Definition AZuu_ctor : stmt :=
(SLoc rT n_two (EUn I2T (EInt 2));,
SMemT n_sqrt2 (EUn SqrtT (ELocT n_two));,
SMemT n_MZ ((EMemT n_MW) /t (EMemT n_CW));,
SParticle 0 (EUn I2T (EInt 0));,
SParticle 1 (EMemT n_MZ);,
SParticle 2 (EMemT n_mu);,
SParticle 3 (EMemT n_mu);,
SSprod n_a12a true 0 [] 1;,
SSprod n_a13a true 0 [] 2;,
SSprod n_a14a true 0 [] 3;,
SSprod n_s12s false 0 [] 1;,
SSprod n_s13s false 0 [] 2;,
SSprod n_s14s false 0 [] 3;,
SSprod n_a23a true 1 [] 2;,
SSprod n_a24a true 1 [] 3;,
SSprod n_s23s false 1 [] 2;,
SSprod n_s24s false 1 [] 3;,
SSprod n_s123a false 0 [1] 2;,
SSprod n_s124a false 0 [1] 3;,
SSprod n_s132a false 0 [2] 1;,
SSprod n_s142a false 0 [3] 1;,
SSprod n_s231a false 1 [2] 0;,
SSprod n_s241a false 1 [3] 0;,
SSprod n_s321a false 2 [1] 0;,
SSprod n_s421a false 3 [1] 0;,
SMemT n_preTU ((((EMemT n_e) *t (EMemT n_e)) *t (EMemT n_Qu)) /t ((EMemT n_MW) *t (EMemT n_SW)));,
SMemT n_gL (((((EUn D2T (EUn NegD (ELit (2 # 1)))) *t (EMemT n_Qu)) *t (EMemT n_SW)) *t (EMemT n_SW)) +t (EUn D2T (ELit (1 # 1))));,
SMemT n_gR ((((EUn D2T (EUn NegD (ELit (2 # 1)))) *t (EMemT n_Qu)) *t (EMemT n_SW)) *t (EMemT n_SW))).
(** AZuu::set_masses: SM/AZuu.cpp 65-76 *)
Definition AZuu_set_masses : meth := mkMeth n_set_masses [(n_massu, PkT); (n_massW, PkT)]
(SMemT n_mu (ELocT n_massu);,
SMemT n_MW (ELocT n_massW);,
SMemT n_MZ ((EMemT n_MW) /t (EMemT n_CW));,
SSetMass 0 (EUn I2T (EInt 0));,
SSetMass 1 (EMemT n_MZ);,
SSetMass 2 (EMemT n_mu);,
SSetMass 3 (EMemT n_mu);,
SPropMass n_prope (EMemT n_mu);,
SMemT n_preTU ((((EMemT n_e) *t (EMemT n_e)) *t (EMemT n_Qu)) /t ((EMemT n_MW) *t (EMemT n_SW)))).
(** AZuu::set_momenta: SM/AZuu.cpp 77-110 *)
Definition AZuu_set_momenta : meth := mkMeth n_set_momenta [(n_mom1, PkMom); (n_mom2, PkMom); (n_mom3, PkMom); (n_mom4, PkMom)]
(SSetMomentum 0 n_mom1;,
SSetMomentum 1 n_mom2;,
SSetMomentum 2 n_mom3;,
SSetMomentum 3 n_mom4;,
SUpdate n_a12a;,
SUpdate n_a13a;,
SUpdate n_a14a;,
SUpdate n_s12s;,
SUpdate n_s13s;,
SUpdate n_s14s;,
SUpdate n_a23a;,
SUpdate n_a24a;,
SUpdate n_s23s;,
SUpdate n_s24s;,
SUpdate n_s123a;,
SUpdate n_s124a;,
SUpdate n_s132a;,
SUpdate n_s142a;,
SUpdate n_s231a;,
SUpdate n_s241a;,
SUpdate n_s321a;,
SUpdate n_s421a;,
SDeclT n_propTP 4;,
SDeclT n_propUP 4;,
(SFor n_j (EInt 0) (EBin (CmpI CLt) (ELocI n_j) (EInt 4)) (EBin (OpI IAdd) (ELocI n_j) (EInt 1))
(SArrT n_propTP (AVar n_j) ((EArrT n_mom1 (AVar n_j)) -t (EArrT n_mom3 (AVar n_j)));,
SArrT n_propUP (AVar n_j) ((EArrT n_mom1 (AVar n_j)) -t (EArrT n_mom4 (AVar n_j)))));,
SMemC n_pDenT (EDen n_prope n_propTP);,
SMemC n_pDenU (EDen n_prope n_propUP)).
(** AZuu::amp: SM/AZuu.cpp 115-149 *)
Definition AZuu_amp : meth := mkMeth n_amp [(n_ds1, PkI); (n_ds2, PkI); (n_ds3, PkI); (n_ds4, PkI)]
(SLoc rC n_amplitude (EBin OpTTC (EUn I2T (EInt 0)) (EUn I2T (EInt 0)));,
SDecl rI n_ds2a;,
SDecl rI n_ds2b;,
SLoc rT n_two (EUn I2T (EInt 2));,
SLoc rI n_nCombs (ENLoops [(AVar n_ds2)]);,
SLoc rT n_normFactor (ENorm [(AVar n_ds2)]);,
(SFor n_i (EInt 0) (EBin (CmpI CLt) (ELocI n_i) (ELocI n_nCombs)) (EBin (OpI IAdd) (ELocI n_i) (EInt 1))
(SSpins [(n_ds2, n_ds2a, n_ds2b)] (AVar n_i);,
(SIf (EBin (CmpI CGt) (ELocI n_ds1) (EInt 0))
(SLoc rC n_amplitude ((ELocC n_amplitude) +c ((((((ELocT n_normFactor) *t (EMemT n_preTU)) *t (EMemT n_gL)) *tc (((((EMemT n_mu) *tc (EV n_s12s [(AVar n_ds2a)])) *c (EV n_a24a [(AVar n_ds2b); (AVar n_ds4)])) *c (EV n_s123a [(AVar n_ds3)])) -c ((((EMemT n_MZ) *tc (EV n_s13s [(AVar n_ds3)])) *c (EV n_a24a [(AVar n_ds2a); (AVar n_ds4)])) *c (EV n_s142a [(AVar n_ds2b)])))) /c (EMemC n_pDenT)) /c (EMemC n_pDenU)));,
SLoc rC n_amplitude ((ELocC n_amplitude) +c ((((((ELocT n_normFactor) *t (EMemT n_preTU)) *t (EMemT n_gR)) *tc (((((EUn NegT (EMemT n_mu)) *tc (EV n_s12s [(AVar n_ds2a)])) *c (EV n_a23a [(AVar n_ds2b); (AVar n_ds3)])) *c (EV n_s124a [(AVar n_ds4)])) +c ((((EMemT n_MZ) *tc (EV n_s14s [(AVar n_ds4)])) *c (EV n_a23a [(AVar n_ds2a); (AVar n_ds3)])) *c (EV n_s132a [(AVar n_ds2b)])))) /c (EMemC n_pDenT)) /c (EMemC n_pDenU))))
(SIf (EBin (CmpI CLt) (ELocI n_ds1) (EInt 0))
(SLoc rC n_amplitude ((ELocC n_amplitude) +c (((((((ELocT n_normFactor) *t (EMemT n_preTU)) *t (EMemT n_gR)) *tc (EV n_s24s [(AVar n_ds2a); (AVar n_ds4)])) *c ((((EUn NegT (EMemT n_MZ)) *tc (EV n_a13a [(AVar n_ds3)])) *c (EV n_s241a [(AVar n_ds2b)])) +c (((EMemT n_mu) *tc (EV n_a12a [(AVar n_ds2b)])) *c (EV n_s321a [(AVar n_ds3)])))) /c (EMemC n_pDenT)) /c (EMemC n_pDenU)));,
SLoc rC n_amplitude ((ELocC n_amplitude) +c (((((((ELocT n_normFactor) *t (EMemT n_preTU)) *t (EMemT n_gL)) *tc (EV n_s23s [(AVar n_ds2a); (AVar n_ds3)])) *c ((((EMemT n_MZ) *tc (EV n_a14a [(AVar n_ds4)])) *c (EV n_s231a [(AVar n_ds2b)])) -c (((EMemT n_mu) *tc (EV n_a12a [(AVar n_ds2b)])) *c (EV n_s421a [(AVar n_ds4)])))) /c (EMemC n_pDenT)) /c (EMemC n_pDenU))))
(SSkip)))));,
SReturnC (ELocC n_amplitude)).
(** AZuu::amp2: SM/AZuu.cpp 152-166 *)
Definition AZuu_amp2 : meth := mkMeth n_amp2 []
(SLoc rT n_amp2 (EUn I2T (EInt 0));,
SDecl rC n_M;,
(SFor n_j1 (EUn NegI (EInt 2)) (EBin (CmpI CLe) (ELocI n_j1) (EInt 2)) (EBin (OpI IAdd) (ELocI n_j1) (EInt 4))
(SFor n_j2 (EUn NegI (EInt 2)) (EBin (CmpI CLe) (ELocI n_j2) (EInt 2)) (EBin (OpI IAdd) (ELocI n_j2) (EInt 2))
(SFor n_j3 (EUn NegI (EInt 1)) (EBin (CmpI CLe) (ELocI n_j3) (EInt 1)) (EBin (OpI IAdd) (ELocI n_j3) (EInt 2))
(SFor n_j4 (EUn NegI (EInt 1)) (EBin (CmpI CLe) (ELocI n_j4) (EInt 1)) (EBin (OpI IAdd) (ELocI n_j4) (EInt 2))
(SLoc rC n_M (ECall n_amp [(AVar n_j1); (AVar n_j2); (AVar n_j3); (AVar n_j4)]);,
SLoc rT n_amp2 ((ELocT n_amp2) +t ((EUn D2T (ELit (3 # 1))) *t (EUn Pow2T (EUn AbsC (ELocC n_M))))))))));,
SReturnT ((ELocT n_amp2) /t (EUn D2T (ELit (6 # 1))))).
(** AZuu::amp2_Aplus: SM/AZuu.cpp 168-181 *)
Definition AZuu_amp2_Aplus : meth := mkMeth n_amp2_Aplus []
(SLoc rT n_amp2 (EUn I2T (EInt 0));,
SDecl rC n_M;,
(SFor n_j2 (EUn NegI (EInt 2)) (EBin (CmpI CLe) (ELocI n_j2) (EInt 2)) (EBin (OpI IAdd) (ELocI n_j2) (EInt 2))
(SFor n_j3 (EUn NegI (EInt 1)) (EBin (CmpI CLe) (ELocI n_j3) (EInt 1)) (EBin (OpI IAdd) (ELocI n_j3) (EInt 2))
(SFor n_j4 (EUn NegI (EInt 1)) (EBin (CmpI CLe) (ELocI n_j4) (EInt 1)) (EBin (OpI IAdd) (ELocI n_j4) (EInt 2))
(SLoc rC n_M (ECall n_amp [(ALit 2); (AVar n_j2); (AVar n_j3); (AVar n_j4)]);,
SLoc rT n_amp2 ((ELocT n_amp2) +t ((EUn D2T (ELit (3 # 1))) *t (EUn Pow2T (EUn AbsC (ELocC n_M)))))))));,
SReturnT ((ELocT n_amp2) /t (EUn D2T (ELit (3 # 1))))).
(** AZuu::amp2_Aminus: SM/AZuu.cpp 183-196 *)
Definition AZuu_amp2_Aminus : meth := mkMeth n_amp2_Aminus []
(SLoc rT n_amp2 (EUn I2T (EInt 0));,
SDecl rC n_M;,
(SFor n_j2 (EUn NegI (EInt 2)) (EBin (CmpI CLe) (ELocI n_j2) (EInt 2)) (EBin (OpI IAdd) (ELocI n_j2) (EInt 2))
(SFor n_j3 (EUn NegI (EInt 1)) (EBin (CmpI CLe) (ELocI n_j3) (EInt 1)) (EBin (OpI IAdd) (ELocI n_j3) (EInt 2))
(SFor n_j4 (EUn NegI (EInt 1)) (EBin (CmpI CLe) (ELocI n_j4) (EInt 1)) (EBin (OpI IAdd) (ELocI n_j4) (EInt 2))
(SLoc rC n_M (ECall n_amp [(ALit (-2)); (AVar n_j2); (AVar n_j3); (AVar n_j4)]);,
SLoc rT n_amp2 ((ELocT n_amp2) +t ((EUn D2T (ELit (3 # 1))) *t (EUn Pow2T (EUn AbsC (ELocC n_M)))))))));,
SReturnT ((ELocT n_amp2) /t (EUn D2T (ELit (3 # 1))))).
(** members: SM/include/AZuu.h 26-34; initialisers: SM/AZuu.cpp 32-33 *)
Definition AZuu : cls := mkCls "AZuu"
[(n_e, KT);
(n_Qu, KT);
(n_mu, KT);
(n_MW, KT);
(n_SW, KT);
(n_CW, KT);
(n_MZ, KT);
(n_p1, (KPart 0));
(n_p2, (KPart 1));
(n_p3, (KPart 2));
(n_p4, (KPart 3));
(n_prope, KProp);
(n_pDenT, KC);
(n_pDenU, KC);
(n_a12a, KSprod);
(n_a13a, KSprod);
(n_a14a, KSprod);
(n_s12s, KSprod);
(n_s13s, KSprod);
(n_s14s, KSprod);
(n_a23a, KSprod);
(n_a24a, KSprod);
(n_s23s, KSprod);
(n_s24s, KSprod);
(n_s123a, KSprod);
(n_s124a, KSprod);
(n_s132a, KSprod);
(n_s142a, KSprod);
(n_s231a, KSprod);
(n_s241a, KSprod);
(n_s321a, KSprod);
(n_s421a, KSprod);
(n_sqrt2, KT);
(n_preTU, KT);
(n_preh, KT);
(n_gL, KT);
(n_gR, KT)]
[n_echarge; n_massu; n_massW; n_sinW]
[(n_e, NT (ELocT n_echarge));
(n_Qu, NT (EUn D2T ((ELit (2 # 1)) /d (ELit (3 # 1)))));
(n_mu, NT (ELocT n_massu));
(n_MW, NT (ELocT n_massW));
(n_SW, NT (ELocT n_sinW));
(n_CW, NT (EUn SqrtT ((EUn D2T (ELit (1 # 1))) -t ((ELocT n_sinW) *t (ELocT n_sinW)))));
(n_MZ, NT ((ELocT n_massW) /t (EMemT n_CW)));
(n_prope, NProp (ELocT n_massu) (EUn I2T (EInt 0)))]
AZuu_ctor
[AZuu_set_masses; AZuu_set_momenta; AZuu_amp; AZuu_amp2; AZuu_amp2_Aplus; AZuu_amp2_Aminus].

Definition SM01_classes : list cls := [AAWW; AAdd; AAee; AAuu; AWAW; AWWh; AWZW; AWud; AZWW; AZdd; AZee; AZuu].
