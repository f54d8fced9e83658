(** Generated by tools/translate.py from SM/uAAu.cpp ... SM/udtb.cpp.  Do not edit. *)
From Coq Require Import QArith String.
From Verif Require Import Base Scalar Particle Sproduct Lang SMSyntax SMNames.
Local Open Scope sm_scope.
Local Open Scope string_scope.

(** uAAu::uAAu: SM/uAAu.cpp 32-54 *)
Definition uAAu_ctor : stmt :=
(SLoc rT n_two (EUn I2T (EInt 2));,
SMemT n_sqrt2 (EUn SqrtT (ELocT n_two));,
SParticle 0 (EMemT n_mu);,
SParticle 1 (EUn I2T (EInt 0));,
SParticle 2 (EUn I2T (EInt 0));,
SParticle 3 (EMemT n_mu);,
SSprod n_s34s false 2 [] 3;,
SSprod n_a34a true 2 [] 3;,
SSprod n_s12s false 0 [] 1;,
SSprod n_a12a true 0 [] 1;,
SSprod n_s13s false 0 [] 2;,
SSprod n_a13a true 0 [] 2;,
SSprod n_s24s false 1 [] 3;,
SSprod n_a24a true 1 [] 3;,
SSprod n_s23s false 1 [] 2;,
SSprod n_a23a true 1 [] 2;,
SSprod n_s14s false 0 [] 3;,
SSprod n_a14a true 0 [] 3;,
SSprod n_s342a false 2 [3] 1;,
SSprod n_s243a false 1 [3] 2).
(** uAAu::set_masses: SM/uAAu.cpp 55-60 *)
Definition uAAu_set_masses : meth := mkMeth n_set_masses [(n_massu, PkT)]
(SMemT n_mu (ELocT n_massu);,
SSetMass 0 (EMemT n_mu);,
SSetMass 3 (EMemT n_mu);,
SPropMass n_prop (EMemT n_mu)).
(** uAAu::set_momenta: SM/uAAu.cpp 61-90 *)
Definition uAAu_set_momenta : meth := mkMeth n_set_momenta [(n_mom1, PkMom); (n_mom2, PkMom); (n_mom3, PkMom); (n_mom4, PkMom)]
(SSetMomentum 0 n_mom1;,
SSetMomentum 1 n_mom2;,
SSetMomentum 2 n_mom3;,
SSetMomentum 3 n_mom4;,
SUpdate n_s34s;,
SUpdate n_a34a;,
SUpdate n_s12s;,
SUpdate n_a12a;,
SUpdate n_s13s;,
SUpdate n_a13a;,
SUpdate n_s24s;,
SUpdate n_a24a;,
SUpdate n_s23s;,
SUpdate n_a23a;,
SUpdate n_s14s;,
SUpdate n_a14a;,
SUpdate n_s342a;,
SUpdate n_s243a;,
SDeclT n_propTP 4;,
SDeclT n_propSP 4;,
(SFor n_j (EInt 0) (EBin (CmpI CLt) (ELocI n_j) (EInt 4)) (EBin (OpI IAdd) (ELocI n_j) (EInt 1))
(SArrT n_propTP (AVar n_j) ((EArrT n_mom1 (AVar n_j)) -t (EArrT n_mom3 (AVar n_j)));,
SArrT n_propSP (AVar n_j) ((EArrT n_mom1 (AVar n_j)) +t (EArrT n_mom2 (AVar n_j)))));,
SMemC n_pDenT (EDen n_prop n_propTP);,
SMemC n_pDenS (EDen n_prop n_propSP)).
(** uAAu::amp: SM/uAAu.cpp 97-123 *)
Definition uAAu_amp : meth := mkMeth n_amp [(n_ds1, PkI); (n_ds2, PkI); (n_ds3, PkI); (n_ds4, PkI)]
((SIf (EAnd (EBin (CmpI CGt) (ELocI n_ds2) (EInt 0)) (EBin (CmpI CGt) (ELocI n_ds3) (EInt 0)))
(SReturnC (((((((((((EUn D2T (ELit (2 # 1))) *t (EMemT n_e)) *t (EMemT n_e)) *t (EMemT n_Qu)) *t (EMemT n_Qu)) *t (EMemT n_mu)) *tc (EV n_s23s [])) *c (EV n_s23s [])) *c (EV n_a14a [(AVar n_ds1); (AVar n_ds4)])) /c (EMemC n_pDenT)) /c (EMemC n_pDenS)))
((SIf (EAnd (EBin (CmpI CLt) (ELocI n_ds2) (EInt 0)) (EBin (CmpI CLt) (ELocI n_ds3) (EInt 0)))
(SReturnC (((((((((((EUn D2T (EUn NegD (ELit (2 # 1)))) *t (EMemT n_e)) *t (EMemT n_e)) *t (EMemT n_Qu)) *t (EMemT n_Qu)) *t (EMemT n_mu)) *tc (EV n_a23a [])) *c (EV n_a23a [])) *c (EV n_s14s [(AVar n_ds1); (AVar n_ds4)])) /c (EMemC n_pDenT)) /c (EMemC n_pDenS)))
((SIf (EAnd (EBin (CmpI CGt) (ELocI n_ds3) (EInt 0)) (EBin (CmpI CLt) (ELocI n_ds2) (EInt 0)))
(SReturnC (((((((((EUn D2T (ELit (2 # 1))) *t (EMemT n_e)) *t (EMemT n_e)) *t (EMemT n_Qu)) *t (EMemT n_Qu)) *tc (((EV n_s34s [(AVar n_ds4)]) *c (EV n_a12a [(AVar n_ds1)])) -c ((EV n_s13s [(AVar n_ds1)]) *c (EV n_a24a [(AVar n_ds4)])))) *c (EV n_s342a [])) /c (EMemC n_pDenT)) /c (EMemC n_pDenS)))
((SIf (EAnd (EBin (CmpI CLt) (ELocI n_ds3) (EInt 0)) (EBin (CmpI CGt) (ELocI n_ds2) (EInt 0)))
(SReturnC (((((((((EUn D2T (EUn NegD (ELit (2 # 1)))) *t (EMemT n_e)) *t (EMemT n_e)) *t (EMemT n_Qu)) *t (EMemT n_Qu)) *tc (((EV n_a34a [(AVar n_ds4)]) *c (EV n_s12s [(AVar n_ds1)])) -c ((EV n_a13a [(AVar n_ds1)]) *c (EV n_s24s [(AVar n_ds4)])))) *c (EV n_s243a [])) /c (EMemC n_pDenT)) /c (EMemC n_pDenS)))
(SSkip))))))));,
SReturnC (EBin OpTTC (EUn I2T (EInt 0)) (EUn I2T (EInt 0)))).
(** uAAu::amp2: SM/uAAu.cpp 127-142 *)
Definition uAAu_amp2 : meth := mkMeth n_amp2 []
(SLoc rT n_amp2 (EUn I2T (EInt 0));,
SDecl rC n_M;,
(SFor n_j1 (EUn NegI (EInt 1)) (EBin (CmpI CLe) (ELocI n_j1) (EInt 1)) (EBin (OpI IAdd) (ELocI n_j1) (EInt 2))
(SFor n_j2 (EUn NegI (EInt 2)) (EBin (CmpI CLe) (ELocI n_j2) (EInt 2)) (EBin (OpI IAdd) (ELocI n_j2) (EInt 4))
(SFor n_j3 (EUn NegI (EInt 2)) (EBin (CmpI CLe) (ELocI n_j3) (EInt 2)) (EBin (OpI IAdd) (ELocI n_j3) (EInt 4))
(SFor n_j4 (EUn NegI (EInt 1)) (EBin (CmpI CLe) (ELocI n_j4) (EInt 1)) (EBin (OpI IAdd) (ELocI n_j4) (EInt 2))
(SLoc rC n_M (ECall n_amp [(AVar n_j1); (AVar n_j2); (AVar n_j3); (AVar n_j4)]);,
SLoc rT n_amp2 ((ELocT n_amp2) +t ((EUn D2T (ELit (3 # 1))) *t (EUn Pow2T (EUn AbsC (ELocC n_M))))))))));,
SReturnT ((ELocT n_amp2) /t (EUn D2T (ELit (12 # 1))))).
(** uAAu::amp2_Aplus: SM/uAAu.cpp 145-159 *)
Definition uAAu_amp2_Aplus : meth := mkMeth n_amp2_Aplus []
(SLoc rT n_amp2 (EUn I2T (EInt 0));,
SDecl rC n_M;,
(SFor n_j1 (EUn NegI (EInt 1)) (EBin (CmpI CLe) (ELocI n_j1) (EInt 1)) (EBin (OpI IAdd) (ELocI n_j1) (EInt 2))
(SFor n_j3 (EUn NegI (EInt 2)) (EBin (CmpI CLe) (ELocI n_j3) (EInt 2)) (EBin (OpI IAdd) (ELocI n_j3) (EInt 4))
(SFor n_j4 (EUn NegI (EInt 1)) (EBin (CmpI CLe) (ELocI n_j4) (EInt 1)) (EBin (OpI IAdd) (ELocI n_j4) (EInt 2))
(SLoc rC n_M (ECall n_amp [(AVar n_j1); (ALit 2); (AVar n_j3); (AVar n_j4)]);,
SLoc rT n_amp2 ((ELocT n_amp2) +t ((EUn D2T (ELit (3 # 1))) *t (EUn Pow2T (EUn AbsC (ELocC n_M)))))))));,
SReturnT ((ELocT n_amp2) /t (EUn D2T (ELit (6 # 1))))).
(** uAAu::amp2_Aminus: SM/uAAu.cpp 162-176 *)
Definition uAAu_amp2_Aminus : meth := mkMeth n_amp2_Aminus []
(SLoc rT n_amp2 (EUn I2T (EInt 0));,
SDecl rC n_M;,
(SFor n_j1 (EUn NegI (EInt 1)) (EBin (CmpI CLe) (ELocI n_j1) (EInt 1)) (EBin (OpI IAdd) (ELocI n_j1) (EInt 2))
(SFor n_j3 (EUn NegI (EInt 2)) (EBin (CmpI CLe) (ELocI n_j3) (EInt 2)) (EBin (OpI IAdd) (ELocI n_j3) (EInt 4))
(SFor n_j4 (EUn NegI (EInt 1)) (EBin (CmpI CLe) (ELocI n_j4) (EInt 1)) (EBin (OpI IAdd) (ELocI n_j4) (EInt 2))
(SLoc rC n_M (ECall n_amp [(AVar n_j1); (ALit (-2)); (AVar n_j3); (AVar n_j4)]);,
SLoc rT n_amp2 ((ELocT n_amp2) +t ((EUn D2T (ELit (3 # 1))) *t (EUn Pow2T (EUn AbsC (ELocC n_M)))))))));,
SReturnT ((ELocT n_amp2) /t (EUn D2T (ELit (6 # 1))))).
(** members: SM/include/uAAu.h 26-32; initialisers: SM/uAAu.cpp 32-33 *)
Definition uAAu : cls := mkCls "uAAu"
[(n_e, KT);
(n_Qu, KT);
(n_mu, KT);
(n_p1, (KPart 0));
(n_p2, (KPart 1));
(n_p3, (KPart 2));
(n_p4, (KPart 3));
(n_prop, KProp);
(n_pDenT, KC);
(n_pDenS, KC);
(n_s34s, KSprod);
(n_a34a, KSprod);
(n_s12s, KSprod);
(n_a12a, KSprod);
(n_s13s, KSprod);
(n_a13a, KSprod);
(n_s24s, KSprod);
(n_a24a, KSprod);
(n_s23s, KSprod);
(n_a23a, KSprod);
(n_s14s, KSprod);
(n_a14a, KSprod);
(n_s342a, KSprod);
(n_s243a, KSprod);
(n_sqrt2, KT)]
[n_echarge; n_massu]
[(n_e, NT (ELocT n_echarge));
(n_Qu, NT (EUn D2T ((ELit (2 # 1)) /d (ELit (3 # 1)))));
(n_mu, NT (ELocT n_massu));
(n_prop, NProp (ELocT n_massu) (EUn I2T (EInt 0)))]
uAAu_ctor
[uAAu_set_masses; uAAu_set_momenta; uAAu_amp; uAAu_amp2; uAAu_amp2_Aplus; uAAu_amp2_Aminus].

(** uAuh::uAuh: SM/uAuh.cpp 32-53 *)
Definition uAuh_ctor : stmt :=
(SLoc rT n_two (EUn I2T (EInt 2));,
SMemT n_sqrt2 (EUn SqrtT (ELocT n_two));,
SParticle 0 (EMemT n_mu);,
SParticle 1 (EUn I2T (EInt 0));,
SParticle 2 (EMemT n_mu);,
SParticle 3 (EMemT n_mh);,
SSprod n_s12s false 0 [] 1;,
SSprod n_a12a true 0 [] 1;,
SSprod n_s23s false 1 [] 2;,
SSprod n_a23a true 1 [] 2;,
SSprod n_s13s false 0 [] 2;,
SSprod n_a13a true 0 [] 2;,
SSprod n_s243a false 1 [3] 2;,
SSprod n_a243s true 1 [3] 2;,
SSprod n_s241a false 1 [3] 0;,
SSprod n_a241s true 1 [3] 0;,
SSprod n_s2342s false 1 [2; 3] 1;,
SSprod n_a2342a true 1 [2; 3] 1;,
SMemT n_pre ((((((EMemT n_sqrt2) *t (EMemT n_e)) *t (EMemT n_e)) *t (EMemT n_Qu)) *t (EMemT n_mu)) /t (((EUn D2T (ELit (2 # 1))) *t (EMemT n_MW)) *t (EMemT n_SW)))).
(** uAuh::set_masses: SM/uAuh.cpp 54-62 *)
Definition uAuh_set_masses : meth := mkMeth n_set_masses [(n_massu, PkT); (n_massh, PkT); (n_massW, PkT)]
(SMemT n_mu (ELocT n_massu);,
SMemT n_mh (ELocT n_massh);,
SSetMass 0 (EMemT n_mu);,
SSetMass 2 (EMemT n_mu);,
SSetMass 3 (EMemT n_mh);,
SPropMass n_prop (EMemT n_mu);,
SMemT n_pre ((((((EMemT n_sqrt2) *t (EMemT n_e)) *t (EMemT n_e)) *t (EMemT n_Qu)) *t (EMemT n_mu)) /t (((EUn D2T (ELit (2 # 1))) *t (EMemT n_MW)) *t (EMemT n_SW)))).
(** uAuh::set_momenta: SM/uAuh.cpp 63-89 *)
Definition uAuh_set_momenta : meth := mkMeth n_set_momenta [(n_mom1, PkMom); (n_mom2, PkMom); (n_mom3, PkMom); (n_mom4, PkMom)]
(SSetMomentum 0 n_mom1;,
SSetMomentum 1 n_mom2;,
SSetMomentum 2 n_mom3;,
SSetMomentum 3 n_mom4;,
SUpdate n_s12s;,
SUpdate n_a12a;,
SUpdate n_s23s;,
SUpdate n_a23a;,
SUpdate n_s13s;,
SUpdate n_a13a;,
SUpdate n_s243a;,
SUpdate n_a243s;,
SUpdate n_s241a;,
SUpdate n_a241s;,
SUpdate n_s2342s;,
SUpdate n_a2342a;,
SDeclT n_propSP 4;,
SDeclT n_propUP 4;,
(SFor n_j (EInt 0) (EBin (CmpI CLt) (ELocI n_j) (EInt 4)) (EBin (OpI IAdd) (ELocI n_j) (EInt 1))
(SArrT n_propSP (AVar n_j) ((EArrT n_mom1 (AVar n_j)) +t (EArrT n_mom2 (AVar n_j)));,
SArrT n_propUP (AVar n_j) ((EArrT n_mom1 (AVar n_j)) -t (EArrT n_mom4 (AVar n_j)))));,
SMemC n_pDenS (EDen n_prop n_propSP);,
SMemC n_pDenU (EDen n_prop n_propUP)).
(** uAuh::amp: SM/uAuh.cpp 94-108 *)
Definition uAuh_amp : meth := mkMeth n_amp [(n_ds1, PkI); (n_ds2, PkI); (n_ds3, PkI)]
((SIf (EBin (CmpI CGt) (ELocI n_ds2) (EInt 0))
(SReturnC ((((EMemT n_pre) *tc (((((((EMemT n_mh) *t (EMemT n_mh)) *tc (EV n_s12s [(AVar n_ds1)])) *c (EV n_s23s [(AVar n_ds3)])) -c (((EMemT n_mu) *tc (EV n_s12s [(AVar n_ds1)])) *c (EV n_s243a [(AVar n_ds3)]))) -c (((EMemT n_mu) *tc (EV n_s23s [(AVar n_ds3)])) *c (EV n_s241a [(AVar n_ds1)]))) +c ((EV n_a13a [(AVar n_ds1); (AVar n_ds3)]) *c (EV n_s2342s [])))) /c (EMemC n_pDenS)) /c (EMemC n_pDenU)))
((SIf (EBin (CmpI CLt) (ELocI n_ds2) (EInt 0))
(SReturnC ((((EMemT n_pre) *tc (((((((EUn NegT (EMemT n_mh)) *t (EMemT n_mh)) *tc (EV n_a12a [(AVar n_ds1)])) *c (EV n_a23a [(AVar n_ds3)])) +c (((EMemT n_mu) *tc (EV n_a12a [(AVar n_ds1)])) *c (EV n_a243s [(AVar n_ds3)]))) +c (((EMemT n_mu) *tc (EV n_a23a [(AVar n_ds3)])) *c (EV n_a241s [(AVar n_ds1)]))) -c ((EV n_s13s [(AVar n_ds1); (AVar n_ds3)]) *c (EV n_a2342a [])))) /c (EMemC n_pDenS)) /c (EMemC n_pDenU)))
(SSkip))));,
SReturnC (EBin OpTTC (EUn I2T (EInt 0)) (EUn I2T (EInt 0)))).
(** uAuh::amp2: SM/uAuh.cpp 111-125 *)
Definition uAuh_amp2 : meth := mkMeth n_amp2 []
(SLoc rT n_amp2 (EUn I2T (EInt 0));,
SDecl rC n_M;,
(SFor n_j1 (EUn NegI (EInt 1)) (EBin (CmpI CLe) (ELocI n_j1) (EInt 1)) (EBin (OpI IAdd) (ELocI n_j1) (EInt 2))
(SFor n_j2 (EUn NegI (EInt 2)) (EBin (CmpI CLe) (ELocI n_j2) (EInt 2)) (EBin (OpI IAdd) (ELocI n_j2) (EInt 4))
(SFor n_j3 (EUn NegI (EInt 1)) (EBin (CmpI CLe) (ELocI n_j3) (EInt 1)) (EBin (OpI IAdd) (ELocI n_j3) (EInt 2))
(SLoc rC n_M (ECall n_amp [(AVar n_j1); (AVar n_j2); (AVar n_j3)]);,
SLoc rT n_amp2 ((ELocT n_amp2) +t ((EUn D2T (ELit (3 # 1))) *t (EUn Pow2T (EUn AbsC (ELocC n_M)))))))));,
SReturnT ((ELocT n_amp2) /t (EUn D2T (ELit (12 # 1))))).
(** uAuh::amp2_Aplus: SM/uAuh.cpp 129-142 *)
Definition uAuh_amp2_Aplus : meth := mkMeth n_amp2_Aplus []
(SLoc rT n_amp2 (EUn I2T (EInt 0));,
SDecl rC n_M;,
(SFor n_j1 (EUn NegI (EInt 1)) (EBin (CmpI CLe) (ELocI n_j1) (EInt 1)) (EBin (OpI IAdd) (ELocI n_j1) (EInt 2))
(SFor n_j3 (EUn NegI (EInt 1)) (EBin (CmpI CLe) (ELocI n_j3) (EInt 1)) (EBin (OpI IAdd) (ELocI n_j3) (EInt 2))
(SLoc rC n_M (ECall n_amp [(AVar n_j1); (ALit 2); (AVar n_j3)]);,
SLoc rT n_amp2 ((ELocT n_amp2) +t ((EUn D2T (ELit (3 # 1))) *t (EUn Pow2T (EUn AbsC (ELocC n_M))))))));,
SReturnT ((ELocT n_amp2) /t (EUn D2T (ELit (6 # 1))))).
(** members: SM/include/uAuh.h 26-33; initialisers: SM/uAuh.cpp 32-33 *)
Definition uAuh : cls := mkCls "uAuh"
[(n_e, KT);
(n_Qu, KT);
(n_mu, KT);
(n_mh, KT);
(n_MW, KT);
(n_SW, KT);
(n_pre, KT);
(n_p1, (KPart 0));
(n_p2, (KPart 1));
(n_p3, (KPart 2));
(n_p4, (KPart 3));
(n_prop, KProp);
(n_pDenS, KC);
(n_pDenU, KC);
(n_s12s, KSprod);
(n_a12a, KSprod);
(n_s23s, KSprod);
(n_a23a, KSprod);
(n_s13s, KSprod);
(n_a13a, KSprod);
(n_s243a, KSprod);
(n_a243s, KSprod);
(n_s241a, KSprod);
(n_a241s, KSprod);
(n_s2342s, KSprod);
(n_a2342a, KSprod);
(n_sqrt2, KT)]
[n_echarge; n_massu; n_massh; n_massW; n_sinW]
[(n_e, NT (ELocT n_echarge));
(n_Qu, NT (EUn D2T ((ELit (2 # 1)) /d (ELit (3 # 1)))));
(n_mu, NT (ELocT n_massu));
(n_mh, NT (ELocT n_massh));
(n_prop, NProp (ELocT n_massu) (EUn I2T (EInt 0)));
(n_MW, NT (ELocT n_massW));
(n_SW, NT (ELocT n_sinW))]
uAuh_ctor
[uAuh_set_masses; uAuh_set_momenta; uAuh_amp; uAuh_amp2; uAuh_amp2_Aplus].

(** uWWu::uWWu: SM/uWWu.cpp 32-67 *)
Definition uWWu_ctor : stmt :=
(SLoc rT n_two (EUn I2T (EInt 2));,
SMemT n_sqrt2 (EUn SqrtT (ELocT n_two));,
SMemT n_MZ ((EMemT n_MW) /t (EMemT n_CW));,
SPropNew n_propZ (EMemT n_MZ) (EMemT n_WZ);,
SPropNew n_proph (EMemT n_mh) (EMemT n_wh);,
SParticle 0 (EMemT n_mu);,
SParticle 1 (EMemT n_MW);,
SParticle 2 (EMemT n_MW);,
SParticle 3 (EMemT n_mu);,
SSprod n_s12s false 0 [] 1;,
SSprod n_a12a true 0 [] 1;,
SSprod n_s23s false 1 [] 2;,
SSprod n_a23a true 1 [] 2;,
SSprod n_s13s false 0 [] 2;,
SSprod n_a13a true 0 [] 2;,
SSprod n_s34s false 2 [] 3;,
SSprod n_a34a true 2 [] 3;,
SSprod n_s24s false 1 [] 3;,
SSprod n_a24a true 1 [] 3;,
SSprod n_s14s false 0 [] 3;,
SSprod n_a14a true 0 [] 3;,
SSprod n_s213a false 1 [0] 2;,
SSprod n_s312a false 2 [0] 1;,
SSprod n_s431a false 3 [2] 0;,
SSprod n_s134a false 0 [2] 3;,
SMemT n_pred ((((EUn D2T (ELit (2 # 1))) *t (EMemT n_e)) *t (EMemT n_e)) /t (((((EUn D2T (ELit (2 # 1))) *t (EMemT n_MW)) *t (EMemT n_MW)) *t (EMemT n_SW)) *t (EMemT n_SW)));,
SMemT n_preh (((((EUn D2T (ELit (2 # 1))) *t (EMemT n_e)) *t (EMemT n_e)) *t (EMemT n_mu)) /t (((((EUn D2T (ELit (4 # 1))) *t (EMemT n_MW)) *t (EMemT n_MW)) *t (EMemT n_SW)) *t (EMemT n_SW)));,
SMemT n_preZ (((EMemT n_e) *t (EMemT n_e)) /t (((((EUn D2T (ELit (2 # 1))) *t (EMemT n_MW)) *t (EMemT n_MW)) *t (EMemT n_SW)) *t (EMemT n_SW)));,
SMemT n_gL (((((EUn D2T (EUn NegD (ELit (2 # 1)))) *t (EMemT n_Qf)) *t (EMemT n_SW)) *t (EMemT n_SW)) +t (EUn D2T (ELit (1 # 1))));,
SMemT n_gR ((((EUn D2T (EUn NegD (ELit (2 # 1)))) *t (EMemT n_Qf)) *t (EMemT n_SW)) *t (EMemT n_SW))).
(** uWWu::set_masses: SM/uWWu.cpp 68-85 *)
Definition uWWu_set_masses : meth := mkMeth n_set_masses [(n_massu, PkT); (n_massd, PkT); (n_massh, PkT); (n_massW, PkT)]
(SMemT n_mu (ELocT n_massu);,
SMemT n_md (ELocT n_massd);,
SMemT n_mh (ELocT n_massh);,
SMemT n_MW (ELocT n_massW);,
SMemT n_MZ ((EMemT n_MW) /t (EMemT n_CW));,
SSetMass 0 (EMemT n_mu);,
SSetMass 1 (EMemT n_MW);,
SSetMass 2 (EMemT n_MW);,
SSetMass 3 (EMemT n_mu);,
SPropMass n_propd (EMemT n_md);,
SPropMass n_proph (EMemT n_mh);,
SPropMass n_propZ (EMemT n_MZ);,
SMemT n_pred ((((EUn D2T (ELit (2 # 1))) *t (EMemT n_e)) *t (EMemT n_e)) /t (((((EUn D2T (ELit (2 # 1))) *t (EMemT n_MW)) *t (EMemT n_MW)) *t (EMemT n_SW)) *t (EMemT n_SW)));,
SMemT n_preh (((((EUn D2T (ELit (2 # 1))) *t (EMemT n_e)) *t (EMemT n_e)) *t (EMemT n_mu)) /t (((((EUn D2T (ELit (4 # 1))) *t (EMemT n_MW)) *t (EMemT n_MW)) *t (EMemT n_SW)) *t (EMemT n_SW)));,
SMemT n_preZ (((EMemT n_e) *t (EMemT n_e)) /t (((((EUn D2T (ELit (2 # 1))) *t (EMemT n_MW)) *t (EMemT n_MW)) *t (EMemT n_SW)) *t (EMemT n_SW)))).
(** uWWu::set_momenta: SM/uWWu.cpp 86-122 *)
Definition uWWu_set_momenta : meth := mkMeth n_set_momenta [(n_mom1, PkMom); (n_mom2, PkMom); (n_mom3, PkMom); (n_mom4, PkMom)]
(SSetMomentum 0 n_mom1;,
SSetMomentum 1 n_mom2;,
SSetMomentum 2 n_mom3;,
SSetMomentum 3 n_mom4;,
SUpdate n_s12s;,
SUpdate n_a12a;,
SUpdate n_s23s;,
SUpdate n_a23a;,
SUpdate n_s13s;,
SUpdate n_a13a;,
SUpdate n_s34s;,
SUpdate n_a34a;,
SUpdate n_s24s;,
SUpdate n_a24a;,
SUpdate n_s14s;,
SUpdate n_a14a;,
SUpdate n_s213a;,
SUpdate n_s312a;,
SUpdate n_s431a;,
SUpdate n_s134a;,
SDeclT n_propSP 4;,
SDeclT n_propTP 4;,
SDeclT n_propUP 4;,
(SFor n_j (EInt 0) (EBin (CmpI CLt) (ELocI n_j) (EInt 4)) (EBin (OpI IAdd) (ELocI n_j) (EInt 1))
(SArrT n_propSP (AVar n_j) ((EArrT n_mom1 (AVar n_j)) +t (EArrT n_mom2 (AVar n_j)));,
SArrT n_propTP (AVar n_j) ((EArrT n_mom1 (AVar n_j)) -t (EArrT n_mom3 (AVar n_j)));,
SArrT n_propUP (AVar n_j) ((EArrT n_mom1 (AVar n_j)) -t (EArrT n_mom4 (AVar n_j)))));,
SMemC n_pDenhU (EDen n_proph n_propUP);,
SMemC n_pDendT (EDen n_propd n_propTP);,
SMemC n_pDendS (EDen n_propd n_propSP);,
SMemC n_pDenZU (EDen n_propZ n_propUP);,
SMemC n_pDenAU (EDen n_propA n_propUP)).
(** uWWu::amp: SM/uWWu.cpp 127-206 *)
Definition uWWu_amp : meth := mkMeth n_amp [(n_ds1, PkI); (n_ds2, PkI); (n_ds3, PkI); (n_ds4, PkI)]
(SLoc rC n_amplitude (EBin OpTTC (EUn I2T (EInt 0)) (EUn I2T (EInt 0)));,
SDecl rI n_ds3a;,
SDecl rI n_ds3b;,
SDecl rI n_ds2a;,
SDecl rI n_ds2b;,
SLoc rT n_two (EUn I2T (EInt 2));,
SLoc rI n_nCombs (ENLoops [(AVar n_ds3); (AVar n_ds2)]);,
SLoc rT n_normFactor (ENorm [(AVar n_ds3); (AVar n_ds2)]);,
(SFor n_i (EInt 0) (EBin (CmpI CLt) (ELocI n_i) (ELocI n_nCombs)) (EBin (OpI IAdd) (ELocI n_i) (EInt 1))
(SSpins [(n_ds3, n_ds3a, n_ds3b); (n_ds2, n_ds2a, n_ds2b)] (AVar n_i);,
SLoc rC n_amplitude ((ELocC n_amplitude) +c ((((((EUn NegT (ELocT n_normFactor)) *t (EMemT n_preh)) *tc (EV n_s23s [(AVar n_ds2a); (AVar n_ds3a)])) *c (EV n_a23a [(AVar n_ds2b); (AVar n_ds3b)])) *c ((EV n_s14s [(AVar n_ds1); (AVar n_ds4)]) -c (EV n_a14a [(AVar n_ds1); (AVar n_ds4)]))) /c (EMemC n_pDenhU)));,
SLoc rC n_amplitude ((ELocC n_amplitude) +c ((((((EUn NegT (ELocT n_normFactor)) *t (EMemT n_pred)) *tc (EV n_s24s [(AVar n_ds2a); (AVar n_ds4)])) *c (EV n_a13a [(AVar n_ds1); (AVar n_ds3a)])) *c (((EMemT n_MW) *tc (EV n_a23a [(AVar n_ds2b); (AVar n_ds3b)])) +c (EV n_s312a [(AVar n_ds3b); (AVar n_ds2b)]))) /c (EMemC n_pDendT)));,
SLoc rC n_amplitude ((ELocC n_amplitude) +c ((((((((((EUn NegT (ELocT n_normFactor)) *t (EMemT n_e)) *t (EMemT n_e)) *t (EMemT n_Qf)) *t (ELocT n_two)) /t (EMemT n_MW)) *tc (((((EUn NegC (EV n_a13a [(AVar n_ds1); (AVar n_ds3a)])) *c (EV n_s24s [(AVar n_ds2a); (AVar n_ds4)])) -c ((EV n_s13s [(AVar n_ds1); (AVar n_ds3a)]) *c (EV n_a24a [(AVar n_ds2a); (AVar n_ds4)]))) +c ((EV n_a12a [(AVar n_ds1); (AVar n_ds2a)]) *c (EV n_s34s [(AVar n_ds3a); (AVar n_ds4)]))) +c ((EV n_s12s [(AVar n_ds1); (AVar n_ds2a)]) *c (EV n_a34a [(AVar n_ds3a); (AVar n_ds4)])))) *c ((EV n_s23s [(AVar n_ds2b); (AVar n_ds3b)]) -c (EV n_a23a [(AVar n_ds2b); (AVar n_ds3b)]))) /c (EMemC n_pDenAU)) -c (((((((((ELocT n_normFactor) *t (EMemT n_e)) *t (EMemT n_e)) *t (EMemT n_Qf)) *t (ELocT n_two)) /t (EMemT n_MW)) /t (EMemT n_MW)) *tc (((EV n_s23s [(AVar n_ds2a); (AVar n_ds3a)]) *c (EV n_a23a [(AVar n_ds2b); (AVar n_ds3b)])) *c ((EV n_s431a [(AVar n_ds4); (AVar n_ds1)]) -c (EV n_s134a [(AVar n_ds1); (AVar n_ds4)])))) /c (EMemC n_pDenAU))));,
SLoc rC n_amplitude ((ELocC n_amplitude) +c ((((EUn NegT (ELocT n_normFactor)) *t (EMemT n_preZ)) *tc (((((((EUn NegT ((EMemT n_gL) -t (EMemT n_gR))) *t (EMemT n_mu)) *tc (EV n_s23s [(AVar n_ds2a); (AVar n_ds3a)])) *c (EV n_a23a [(AVar n_ds2b); (AVar n_ds3b)])) *c ((EV n_s14s [(AVar n_ds1); (AVar n_ds4)]) +c (EV n_a14a [(AVar n_ds1); (AVar n_ds4)]))) +c ((((ELocT n_two) *tc (EV n_s23s [(AVar n_ds2a); (AVar n_ds3a)])) *c (EV n_a23a [(AVar n_ds2b); (AVar n_ds3b)])) *c (((EMemT n_gL) *tc (EV n_s431a [(AVar n_ds4); (AVar n_ds1)])) -c ((EMemT n_gR) *tc (EV n_s134a [(AVar n_ds1); (AVar n_ds4)]))))) +c ((((ELocT n_two) *t (EMemT n_MW)) *tc ((EV n_s23s [(AVar n_ds2a); (AVar n_ds3a)]) -c (EV n_a23a [(AVar n_ds2a); (AVar n_ds3a)]))) *c (((EMemT n_gL) *tc (((EV n_s34s [(AVar n_ds3b); (AVar n_ds4)]) *c (EV n_a12a [(AVar n_ds1); (AVar n_ds2b)])) -c ((EV n_s24s [(AVar n_ds2b); (AVar n_ds4)]) *c (EV n_a13a [(AVar n_ds1); (AVar n_ds3b)])))) -c ((EMemT n_gR) *tc (((EV n_s13s [(AVar n_ds1); (AVar n_ds3b)]) *c (EV n_a24a [(AVar n_ds2b); (AVar n_ds4)])) -c ((EV n_s12s [(AVar n_ds1); (AVar n_ds2b)]) *c (EV n_a34a [(AVar n_ds3b); (AVar n_ds4)])))))))) /c (EMemC n_pDenZU)))));,
SReturnC (ELocC n_amplitude)).
(** uWWu::amp2: SM/uWWu.cpp 209-224 *)
Definition uWWu_amp2 : meth := mkMeth n_amp2 []
(SLoc rT n_amp2 (EUn I2T (EInt 0));,
SDecl rC n_M;,
(SFor n_j1 (EUn NegI (EInt 1)) (EBin (CmpI CLe) (ELocI n_j1) (EInt 1)) (EBin (OpI IAdd) (ELocI n_j1) (EInt 2))
(SFor n_j2 (EUn NegI (EInt 2)) (EBin (CmpI CLe) (ELocI n_j2) (EInt 2)) (EBin (OpI IAdd) (ELocI n_j2) (EInt 2))
(SFor n_j3 (EUn NegI (EInt 2)) (EBin (CmpI CLe) (ELocI n_j3) (EInt 2)) (EBin (OpI IAdd) (ELocI n_j3) (EInt 2))
(SFor n_j4 (EUn NegI (EInt 1)) (EBin (CmpI CLe) (ELocI n_j4) (EInt 1)) (EBin (OpI IAdd) (ELocI n_j4) (EInt 2))
(SLoc rC n_M (ECall n_amp [(AVar n_j1); (AVar n_j2); (AVar n_j3); (AVar n_j4)]);,
SLoc rT n_amp2 ((ELocT n_amp2) +t ((EUn D2T (ELit (3 # 1))) *t (EUn Pow2T (EUn AbsC (ELocC n_M))))))))));,
SReturnT ((ELocT n_amp2) /t (EUn D2T (ELit (18 # 1))))).
(** members: SM/include/uWWu.h 26-36; initialisers: SM/uWWu.cpp 32-33 *)
Definition uWWu : cls := mkCls "uWWu"
[(n_e, KT);
(n_Qf, KT);
(n_mu, KT);
(n_md, KT);
(n_mh, KT);
(n_wh, KT);
(n_MW, KT);
(n_SW, KT);
(n_CW, KT);
(n_MZ, KT);
(n_WZ, KT);
(n_p1, (KPart 0));
(n_p2, (KPart 1));
(n_p3, (KPart 2));
(n_p4, (KPart 3));
(n_proph, KProp);
(n_propd, KProp);
(n_propZ, KProp);
(n_propA, KProp);
(n_pDenhU, KC);
(n_pDendT, KC);
(n_pDendS, KC);
(n_pDenZU, KC);
(n_pDenAU, KC);
(n_s12s, KSprod);
(n_a12a, KSprod);
(n_s23s, KSprod);
(n_a23a, KSprod);
(n_s13s, KSprod);
(n_a13a, KSprod);
(n_s34s, KSprod);
(n_a34a, KSprod);
(n_s24s, KSprod);
(n_a24a, KSprod);
(n_s14s, KSprod);
(n_a14a, KSprod);
(n_s213a, KSprod);
(n_s312a, KSprod);
(n_s431a, KSprod);
(n_s134a, KSprod);
(n_sqrt2, KT);
(n_pred, KT);
(n_preh, KT);
(n_preZ, KT);
(n_gL, KT);
(n_gR, KT)]
[n_echarge; n_massu; n_massd; n_massh; n_widthh; n_massW; n_sinW; n_widthZ]
[(n_e, NT (ELocT n_echarge));
(n_Qf, NT (EUn D2T ((ELit (2 # 1)) /d (ELit (3 # 1)))));
(n_mu, NT (ELocT n_massu));
(n_md, NT (ELocT n_massd));
(n_mh, NT (ELocT n_massh));
(n_wh, NT (ELocT n_widthh));
(n_MW, NT (ELocT n_massW));
(n_SW, NT (ELocT n_sinW));
(n_CW, NT (EUn SqrtT ((EUn D2T (ELit (1 # 1))) -t ((ELocT n_sinW) *t (ELocT n_sinW)))));
(n_MZ, NT ((ELocT n_massW) /t (EMemT n_CW)));
(n_WZ, NT (ELocT n_widthZ));
(n_propd, NProp (EMemT n_md) (EUn I2T (EInt 0)));
(n_propA, NProp (EUn I2T (EInt 0)) (EUn I2T (EInt 0)))]
uWWu_ctor
[uWWu_set_masses; uWWu_set_momenta; uWWu_amp; uWWu_amp2].

(** uZZu::uZZu: SM/uZZu.cpp 32-63 *)
Definition uZZu_ctor : stmt :=
(SLoc rT n_two (EUn I2T (EInt 2));,
SMemT n_sqrt2 (EUn SqrtT (ELocT n_two));,
SMemT n_MZ ((EMemT n_MW) /t (EMemT n_CW));,
SPropNew n_proph (EMemT n_mh) (EMemT n_wh);,
SParticle 0 (EMemT n_mf);,
SParticle 1 (EMemT n_MZ);,
SParticle 2 (EMemT n_MZ);,
SParticle 3 (EMemT n_mf);,
SSprod n_s12s false 0 [] 1;,
SSprod n_a12a true 0 [] 1;,
SSprod n_s23s false 1 [] 2;,
SSprod n_a23a true 1 [] 2;,
SSprod n_s13s false 0 [] 2;,
SSprod n_a13a true 0 [] 2;,
SSprod n_s34s false 2 [] 3;,
SSprod n_a34a true 2 [] 3;,
SSprod n_s24s false 1 [] 3;,
SSprod n_a24a true 1 [] 3;,
SSprod n_s14s false 0 [] 3;,
SSprod n_a14a true 0 [] 3;,
SSprod n_s312a false 2 [0] 1;,
SSprod n_s213a false 1 [0] 2;,
SMemT n_preTU (((EMemT n_e) *t (EMemT n_e)) /t (((((EUn D2T (ELit (2 # 1))) *t (EMemT n_MW)) *t (EMemT n_MW)) *t (EMemT n_SW)) *t (EMemT n_SW)));,
SMemT n_gL (((((EUn D2T (EUn NegD (ELit (2 # 1)))) *t (EMemT n_Qf)) *t (EMemT n_SW)) *t (EMemT n_SW)) +t (EUn D2T (ELit (1 # 1))));,
SMemT n_gR ((((EUn D2T (EUn NegD (ELit (2 # 1)))) *t (EMemT n_Qf)) *t (EMemT n_SW)) *t (EMemT n_SW));,
SMemT n_preh ((((EMemT n_e) *t (EMemT n_e)) *t (EMemT n_mf)) /t (((((EUn D2T (ELit (2 # 1))) *t (EMemT n_MW)) *t (EMemT n_MW)) *t (EMemT n_SW)) *t (EMemT n_SW)))).
(** uZZu::set_masses: SM/uZZu.cpp 64-78 *)
Definition uZZu_set_masses : meth := mkMeth n_set_masses [(n_massf, PkT); (n_massh, PkT); (n_massW, PkT)]
(SMemT n_mf (ELocT n_massf);,
SMemT n_mh (ELocT n_massh);,
SMemT n_MW (ELocT n_massW);,
SMemT n_MZ ((EMemT n_MW) /t (EMemT n_CW));,
SSetMass 0 (EMemT n_mf);,
SSetMass 1 (EMemT n_MZ);,
SSetMass 2 (EMemT n_MZ);,
SSetMass 3 (EMemT n_mf);,
SPropMass n_propf (EMemT n_mf);,
SPropMass n_proph (EMemT n_mh);,
SMemT n_preTU (((EMemT n_e) *t (EMemT n_e)) /t (((((EUn D2T (ELit (2 # 1))) *t (EMemT n_MW)) *t (EMemT n_MW)) *t (EMemT n_SW)) *t (EMemT n_SW)));,
SMemT n_preh ((((EMemT n_e) *t (EMemT n_e)) *t (EMemT n_mf)) /t (((((EUn D2T (ELit (2 # 1))) *t (EMemT n_MW)) *t (EMemT n_MW)) *t (EMemT n_SW)) *t (EMemT n_SW)))).
(** uZZu::set_momenta: SM/uZZu.cpp 79-111 *)
Definition uZZu_set_momenta : meth := mkMeth n_set_momenta [(n_mom1, PkMom); (n_mom2, PkMom); (n_mom3, PkMom); (n_mom4, PkMom)]
(SSetMomentum 0 n_mom1;,
SSetMomentum 1 n_mom2;,
SSetMomentum 2 n_mom3;,
SSetMomentum 3 n_mom4;,
SUpdate n_s12s;,
SUpdate n_a12a;,
SUpdate n_s23s;,
SUpdate n_a23a;,
SUpdate n_s13s;,
SUpdate n_a13a;,
SUpdate n_s34s;,
SUpdate n_a34a;,
SUpdate n_s24s;,
SUpdate n_a24a;,
SUpdate n_s14s;,
SUpdate n_a14a;,
SUpdate n_s312a;,
SUpdate n_s213a;,
SDeclT n_propSP 4;,
SDeclT n_propTP 4;,
SDeclT n_propUP 4;,
(SFor n_j (EInt 0) (EBin (CmpI CLt) (ELocI n_j) (EInt 4)) (EBin (OpI IAdd) (ELocI n_j) (EInt 1))
(SArrT n_propSP (AVar n_j) ((EArrT n_mom1 (AVar n_j)) +t (EArrT n_mom2 (AVar n_j)));,
SArrT n_propTP (AVar n_j) ((EArrT n_mom1 (AVar n_j)) -t (EArrT n_mom3 (AVar n_j)));,
SArrT n_propUP (AVar n_j) ((EArrT n_mom1 (AVar n_j)) -t (EArrT n_mom4 (AVar n_j)))));,
SMemC n_pDenS (EDen n_propf n_propSP);,
SMemC n_pDenT (EDen n_propf n_propTP);,
SMemC n_pDenU (EDen n_proph n_propUP)).
(** uZZu::amp: SM/uZZu.cpp 116-178 *)
Definition uZZu_amp : meth := mkMeth n_amp [(n_ds1, PkI); (n_ds2, PkI); (n_ds3, PkI); (n_ds4, PkI)]
(SLoc rC n_amplitude (EBin OpTTC (EUn I2T (EInt 0)) (EUn I2T (EInt 0)));,
SDecl rI n_ds3a;,
SDecl rI n_ds3b;,
SDecl rI n_ds2a;,
SDecl rI n_ds2b;,
SLoc rI n_nCombs (ENLoops [(AVar n_ds3); (AVar n_ds2)]);,
SLoc rT n_normFactor (ENorm [(AVar n_ds3); (AVar n_ds2)]);,
(SFor n_i (EInt 0) (EBin (CmpI CLt) (ELocI n_i) (ELocI n_nCombs)) (EBin (OpI IAdd) (ELocI n_i) (EInt 1))
(SSpins [(n_ds3, n_ds3a, n_ds3b); (n_ds2, n_ds2a, n_ds2b)] (AVar n_i);,
SLoc rC n_amplitude ((ELocC n_amplitude) +c ((((((EUn NegT (ELocT n_normFactor)) *t (EMemT n_preh)) *tc (EV n_s23s [(AVar n_ds2a); (AVar n_ds3a)])) *c (EV n_a23a [(AVar n_ds2b); (AVar n_ds3b)])) *c ((EV n_s14s [(AVar n_ds1); (AVar n_ds4)]) -c (EV n_a14a [(AVar n_ds1); (AVar n_ds4)]))) /c (EMemC n_pDenU)));,
SLoc rC n_amplitude ((ELocC n_amplitude) +c ((((((((((EUn NegT (ELocT n_normFactor)) *t (EMemT n_preTU)) *t (EMemT n_gL)) *t (EMemT n_gL)) *tc (EV n_s24s [(AVar n_ds2a); (AVar n_ds4)])) *c (EV n_a13a [(AVar n_ds1); (AVar n_ds3a)])) *c (((EMemT n_MZ) *tc (EV n_a23a [(AVar n_ds2b); (AVar n_ds3b)])) +c (EV n_s312a [(AVar n_ds3b); (AVar n_ds2b)]))) /c (EMemC n_pDenT)) +c ((((((((ELocT n_normFactor) *t (EMemT n_preTU)) *t (EMemT n_gR)) *t (EMemT n_gR)) *tc (EV n_a24a [(AVar n_ds2a); (AVar n_ds4)])) *c (EV n_s13s [(AVar n_ds1); (AVar n_ds3a)])) *c (((EMemT n_MZ) *tc (EV n_s23s [(AVar n_ds2b); (AVar n_ds3b)])) +c (EV n_s213a [(AVar n_ds2b); (AVar n_ds3b)]))) /c (EMemC n_pDenT))) +c (((((((ELocT n_normFactor) *t (EMemT n_preTU)) *t (EMemT n_gL)) *t (EMemT n_gR)) *t (EMemT n_mf)) *tc ((((EV n_s13s [(AVar n_ds1); (AVar n_ds3a)]) *c (EV n_s24s [(AVar n_ds2a); (AVar n_ds4)])) *c (EV n_a23a [(AVar n_ds2b); (AVar n_ds3b)])) -c (((EV n_a13a [(AVar n_ds1); (AVar n_ds3a)]) *c (EV n_a24a [(AVar n_ds2a); (AVar n_ds4)])) *c (EV n_s23s [(AVar n_ds2b); (AVar n_ds3b)])))) /c (EMemC n_pDenT))));,
SLoc rC n_amplitude ((ELocC n_amplitude) +c ((((((((((EUn NegT (ELocT n_normFactor)) *t (EMemT n_preTU)) *t (EMemT n_gL)) *t (EMemT n_gL)) *tc (EV n_s34s [(AVar n_ds3a); (AVar n_ds4)])) *c (EV n_a12a [(AVar n_ds1); (AVar n_ds2a)])) *c (((EMemT n_MZ) *tc (EV n_a23a [(AVar n_ds2b); (AVar n_ds3b)])) +c (EV n_s213a [(AVar n_ds2b); (AVar n_ds3b)]))) /c (EMemC n_pDenS)) +c ((((((((ELocT n_normFactor) *t (EMemT n_preTU)) *t (EMemT n_gR)) *t (EMemT n_gR)) *tc (EV n_s12s [(AVar n_ds1); (AVar n_ds2a)])) *c (EV n_a34a [(AVar n_ds3a); (AVar n_ds4)])) *c (((EMemT n_MZ) *tc (EV n_s23s [(AVar n_ds2b); (AVar n_ds3b)])) +c (EV n_s312a [(AVar n_ds3b); (AVar n_ds2b)]))) /c (EMemC n_pDenS))) +c (((((((ELocT n_normFactor) *t (EMemT n_preTU)) *t (EMemT n_gL)) *t (EMemT n_gR)) *t (EMemT n_mf)) *tc ((((EUn NegC (EV n_s12s [(AVar n_ds1); (AVar n_ds2a)])) *c (EV n_s34s [(AVar n_ds3a); (AVar n_ds4)])) *c (EV n_a23a [(AVar n_ds2b); (AVar n_ds3b)])) +c (((EV n_a12a [(AVar n_ds1); (AVar n_ds2a)]) *c (EV n_a34a [(AVar n_ds3a); (AVar n_ds4)])) *c (EV n_s23s [(AVar n_ds2b); (AVar n_ds3b)])))) /c (EMemC n_pDenS))))));,
SReturnC (ELocC n_amplitude)).
(** uZZu::amp2: SM/uZZu.cpp 181-196 *)
Definition uZZu_amp2 : meth := mkMeth n_amp2 []
(SLoc rT n_amp2 (EUn I2T (EInt 0));,
SDecl rC n_M;,
(SFor n_j1 (EUn NegI (EInt 1)) (EBin (CmpI CLe) (ELocI n_j1) (EInt 1)) (EBin (OpI IAdd) (ELocI n_j1) (EInt 2))
(SFor n_j2 (EUn NegI (EInt 2)) (EBin (CmpI CLe) (ELocI n_j2) (EInt 2)) (EBin (OpI IAdd) (ELocI n_j2) (EInt 2))
(SFor n_j3 (EUn NegI (EInt 2)) (EBin (CmpI CLe) (ELocI n_j3) (EInt 2)) (EBin (OpI IAdd) (ELocI n_j3) (EInt 2))
(SFor n_j4 (EUn NegI (EInt 1)) (EBin (CmpI CLe) (ELocI n_j4) (EInt 1)) (EBin (OpI IAdd) (ELocI n_j4) (EInt 2))
(SLoc rC n_M (ECall n_amp [(AVar n_j1); (AVar n_j2); (AVar n_j3); (AVar n_j4)]);,
SLoc rT n_amp2 ((ELocT n_amp2) +t ((EUn D2T (ELit (3 # 1))) *t (EUn Pow2T (EUn AbsC (ELocC n_M))))))))));,
SReturnT ((ELocT n_amp2) /t (EUn D2T (ELit (18 # 1))))).
(** members: SM/include/uZZu.h 26-36; initialisers: SM/uZZu.cpp 32-33 *)
Definition uZZu : cls := mkCls "uZZu"
[(n_e, KT);
(n_Qf, KT);
(n_mf, KT);
(n_mh, KT);
(n_wh, KT);
(n_MW, KT);
(n_SW, KT);
(n_CW, KT);
(n_MZ, KT);
(n_WZ, KT);
(n_p1, (KPart 0));
(n_p2, (KPart 1));
(n_p3, (KPart 2));
(n_p4, (KPart 3));
(n_proph, KProp);
(n_propf, KProp);
(n_pDenS, KC);
(n_pDenT, KC);
(n_pDenU, KC);
(n_s12s, KSprod);
(n_a12a, KSprod);
(n_s23s, KSprod);
(n_a23a, KSprod);
(n_s13s, KSprod);
(n_a13a, KSprod);
(n_s34s, KSprod);
(n_a34a, KSprod);
(n_s24s, KSprod);
(n_a24a, KSprod);
(n_s14s, KSprod);
(n_a14a, KSprod);
(n_s312a, KSprod);
(n_s213a, KSprod);
(n_sqrt2, KT);
(n_preTU, KT);
(n_preh, KT);
(n_gL, KT);
(n_gR, KT)]
[n_echarge; n_massf; n_massh; n_widthh; n_massW; n_sinW; n_widthZ]
[(n_e, NT (ELocT n_echarge));
(n_Qf, NT (EUn D2T ((ELit (2 # 1)) /d (ELit (3 # 1)))));
(n_mf, NT (ELocT n_massf));
(n_mh, NT (ELocT n_massh));
(n_wh, NT (ELocT n_widthh));
(n_MW, NT (ELocT n_massW));
(n_SW, NT (ELocT n_sinW));
(n_CW, NT (EUn SqrtT ((EUn D2T (ELit (1 # 1))) -t ((ELocT n_sinW) *t (ELocT n_sinW)))));
(n_MZ, NT ((ELocT n_massW) /t (EMemT n_CW)));
(n_WZ, NT (ELocT n_widthZ));
(n_propf, NProp (ELocT n_massf) (EUn I2T (EInt 0)))]
uZZu_ctor
[uZZu_set_masses; uZZu_set_momenta; uZZu_amp; uZZu_amp2].

(** uZuh::uZuh: SM/uZuh.cpp 32-60 *)
Definition uZuh_ctor : stmt :=
(SLoc rT n_two (EUn I2T (EInt 2));,
SMemT n_sqrt2 (EUn SqrtT (ELocT n_two));,
SMemT n_MZ ((EMemT n_MW) /t (EMemT n_CW));,
SPropNew n_propZ (EMemT n_MZ) (EMemT n_WZ);,
SParticle 0 (EMemT n_mu);,
SParticle 1 (EMemT n_MZ);,
SParticle 2 (EMemT n_mu);,
SParticle 3 (EMemT n_mh);,
SSprod n_s12s false 0 [] 1;,
SSprod n_a12a true 0 [] 1;,
SSprod n_s23s false 1 [] 2;,
SSprod n_a23a true 1 [] 2;,
SSprod n_s13s false 0 [] 2;,
SSprod n_a13a true 0 [] 2;,
SSprod n_s213a false 1 [0] 2;,
SSprod n_s312a false 2 [0] 1;,
SSprod n_s242a false 1 [3] 1;,
SSprod n_s142a false 0 [3] 1;,
SSprod n_s241a false 1 [3] 0;,
SMemT n_preTU (((((EMemT n_sqrt2) *t (EMemT n_e)) *t (EMemT n_e)) *t (EMemT n_mu)) /t (((((EUn D2T (ELit (4 # 1))) *t (EMemT n_MW)) *t (EMemT n_MW)) *t (EMemT n_SW)) *t (EMemT n_SW)));,
SMemT n_gL ((((EUn D2T ((EUn NegD (ELit (4 # 1))) /d (ELit (3 # 1)))) *t (EMemT n_SW)) *t (EMemT n_SW)) +t (EUn D2T (ELit (1 # 1))));,
SMemT n_gR (((EUn D2T ((EUn NegD (ELit (4 # 1))) /d (ELit (3 # 1)))) *t (EMemT n_SW)) *t (EMemT n_SW));,
SMemT n_preZ ((((EMemT n_sqrt2) *t (EMemT n_e)) *t (EMemT n_e)) /t (((((EUn D2T (ELit (4 # 1))) *t (EMemT n_MW)) *t (EMemT n_MW)) *t (EMemT n_SW)) *t (EMemT n_SW)))).
(** uZuh::set_masses: SM/uZuh.cpp 61-75 *)
Definition uZuh_set_masses : meth := mkMeth n_set_masses [(n_massu, PkT); (n_massh, PkT); (n_massW, PkT)]
(SMemT n_mu (ELocT n_massu);,
SMemT n_mh (ELocT n_massh);,
SMemT n_MW (ELocT n_massW);,
SMemT n_MZ ((EMemT n_MW) /t (EMemT n_CW));,
SSetMass 0 (EMemT n_mu);,
SSetMass 1 (EMemT n_MZ);,
SSetMass 2 (EMemT n_mu);,
SSetMass 3 (EMemT n_mh);,
SPropMass n_propu (EMemT n_mu);,
SPropMass n_propZ (EMemT n_MZ);,
SMemT n_preTU (((((EMemT n_sqrt2) *t (EMemT n_e)) *t (EMemT n_e)) *t (EMemT n_mu)) /t (((((EUn D2T (ELit (4 # 1))) *t (EMemT n_MW)) *t (EMemT n_MW)) *t (EMemT n_SW)) *t (EMemT n_SW)));,
SMemT n_preZ ((((EMemT n_sqrt2) *t (EMemT n_e)) *t (EMemT n_e)) /t (((((EUn D2T (ELit (4 # 1))) *t (EMemT n_MW)) *t (EMemT n_MW)) *t (EMemT n_SW)) *t (EMemT n_SW)))).
(** uZuh::set_momenta: SM/uZuh.cpp 76-105 *)
Definition uZuh_set_momenta : meth := mkMeth n_set_momenta [(n_mom1, PkMom); (n_mom2, PkMom); (n_mom3, PkMom); (n_mom4, PkMom)]
(SSetMomentum 0 n_mom1;,
SSetMomentum 1 n_mom2;,
SSetMomentum 2 n_mom3;,
SSetMomentum 3 n_mom4;,
SUpdate n_s12s;,
SUpdate n_a12a;,
SUpdate n_s23s;,
SUpdate n_a23a;,
SUpdate n_s13s;,
SUpdate n_a13a;,
SUpdate n_s213a;,
SUpdate n_s312a;,
SUpdate n_s242a;,
SUpdate n_s142a;,
SUpdate n_s241a;,
SDeclT n_propSP 4;,
SDeclT n_propTP 4;,
SDeclT n_propUP 4;,
(SFor n_j (EInt 0) (EBin (CmpI CLt) (ELocI n_j) (EInt 4)) (EBin (OpI IAdd) (ELocI n_j) (EInt 1))
(SArrT n_propSP (AVar n_j) ((EArrT n_mom1 (AVar n_j)) +t (EArrT n_mom2 (AVar n_j)));,
SArrT n_propTP (AVar n_j) ((EArrT n_mom1 (AVar n_j)) -t (EArrT n_mom3 (AVar n_j)));,
SArrT n_propUP (AVar n_j) ((EArrT n_mom1 (AVar n_j)) -t (EArrT n_mom4 (AVar n_j)))));,
SMemC n_pDenS (EDen n_propu n_propSP);,
SMemC n_pDenT (EDen n_propZ n_propTP);,
SMemC n_pDenU (EDen n_propu n_propUP)).
(** uZuh::amp: SM/uZuh.cpp 110-152 *)
Definition uZuh_amp : meth := mkMeth n_amp [(n_ds1, PkI); (n_ds2, PkI); (n_ds3, PkI)]
(SLoc rC n_amplitude (EBin OpTTC (EUn I2T (EInt 0)) (EUn I2T (EInt 0)));,
SDecl rI n_ds2a;,
SDecl rI n_ds2b;,
SLoc rI n_nCombs (ENLoops [(AVar n_ds2)]);,
SLoc rT n_normFactor (ENorm [(AVar n_ds2)]);,
(SFor n_i (EInt 0) (EBin (CmpI CLt) (ELocI n_i) (ELocI n_nCombs)) (EBin (OpI IAdd) (ELocI n_i) (EInt 1))
(SSpins [(n_ds2, n_ds2a, n_ds2b)] (AVar n_i);,
SLoc rC n_amplitude ((ELocC n_amplitude) +c ((((ELocT n_normFactor) *t (EMemT n_preZ)) *tc (((((EMemT n_mu) *t ((EMemT n_gL) -t (EMemT n_gR))) *tc ((EV n_a13a [(AVar n_ds1); (AVar n_ds3)]) +c (EV n_s13s [(AVar n_ds1); (AVar n_ds3)]))) *c (EV n_s242a [(AVar n_ds2a); (AVar n_ds2b)])) -c ((((EUn D2T (ELit (2 # 1))) *t (EMemT n_MZ)) *t (EMemT n_MZ)) *tc ((((EMemT n_gL) *tc (EV n_s23s [(AVar n_ds2a); (AVar n_ds3)])) *c (EV n_a12a [(AVar n_ds1); (AVar n_ds2b)])) -c (((EMemT n_gR) *tc (EV n_a23a [(AVar n_ds2a); (AVar n_ds3)])) *c (EV n_s12s [(AVar n_ds1); (AVar n_ds2b)])))))) /c (EMemC n_pDenT)));,
SLoc rC n_amplitude ((ELocC n_amplitude) +c ((((ELocT n_normFactor) *t (EMemT n_preTU)) *tc ((((EMemT n_gL) *tc (EV n_a12a [(AVar n_ds1); (AVar n_ds2a)])) *c ((((EUn NegT (EMemT n_mu)) *tc (EV n_s23s [(AVar n_ds2b); (AVar n_ds3)])) +c (EV n_s213a [(AVar n_ds2b); (AVar n_ds3)])) +c ((EMemT n_MZ) *tc (EV n_a23a [(AVar n_ds2b); (AVar n_ds3)])))) +c (((EMemT n_gR) *tc (EV n_s12s [(AVar n_ds1); (AVar n_ds2a)])) *c ((((EMemT n_mu) *tc (EV n_a23a [(AVar n_ds2b); (AVar n_ds3)])) -c (EV n_s312a [(AVar n_ds3); (AVar n_ds2b)])) -c ((EMemT n_MZ) *tc (EV n_s23s [(AVar n_ds2b); (AVar n_ds3)])))))) /c (EMemC n_pDenS)));,
SLoc rC n_amplitude ((ELocC n_amplitude) +c ((((EUn NegT (ELocT n_normFactor)) *t (EMemT n_preTU)) *tc ((((EMemT n_gL) *tc (EV n_s23s [(AVar n_ds2a); (AVar n_ds3)])) *c ((EUn NegC (EV n_s142a [(AVar n_ds1); (AVar n_ds2b)])) +c (((EUn D2T (ELit (2 # 1))) *t (EMemT n_mu)) *tc (EV n_a12a [(AVar n_ds1); (AVar n_ds2b)])))) -c (((EMemT n_gR) *tc (EV n_a23a [(AVar n_ds2a); (AVar n_ds3)])) *c ((EUn NegC (EV n_s241a [(AVar n_ds2b); (AVar n_ds1)])) +c (((EUn D2T (ELit (2 # 1))) *t (EMemT n_mu)) *tc (EV n_s12s [(AVar n_ds1); (AVar n_ds2b)])))))) /c (EMemC n_pDenU)))));,
SReturnC (ELocC n_amplitude)).
(** uZuh::amp2: SM/uZuh.cpp 155-169 *)
Definition uZuh_amp2 : meth := mkMeth n_amp2 []
(SLoc rT n_amp2 (EUn I2T (EInt 0));,
SDecl rC n_M;,
(SFor n_j1 (EUn NegI (EInt 1)) (EBin (CmpI CLe) (ELocI n_j1) (EInt 1)) (EBin (OpI IAdd) (ELocI n_j1) (EInt 2))
(SFor n_j2 (EUn NegI (EInt 2)) (EBin (CmpI CLe) (ELocI n_j2) (EInt 2)) (EBin (OpI IAdd) (ELocI n_j2) (EInt 2))
(SFor n_j3 (EUn NegI (EInt 1)) (EBin (CmpI CLe) (ELocI n_j3) (EInt 1)) (EBin (OpI IAdd) (ELocI n_j3) (EInt 2))
(SLoc rC n_M (ECall n_amp [(AVar n_j1); (AVar n_j2); (AVar n_j3)]);,
SLoc rT n_amp2 ((ELocT n_amp2) +t ((EUn D2T (ELit (3 # 1))) *t (EUn Pow2T (EUn AbsC (ELocC n_M)))))))));,
SReturnT ((ELocT n_amp2) /t (EUn D2T (ELit (18 # 1))))).
(** members: SM/include/uZuh.h 26-36; initialisers: SM/uZuh.cpp 32-33 *)
Definition uZuh : cls := mkCls "uZuh"
[(n_e, KT);
(n_mu, KT);
(n_mh, KT);
(n_wh, KT);
(n_MW, KT);
(n_SW, KT);
(n_CW, KT);
(n_MZ, KT);
(n_WZ, KT);
(n_p1, (KPart 0));
(n_p2, (KPart 1));
(n_p3, (KPart 2));
(n_p4, (KPart 3));
(n_propZ, KProp);
(n_propu, KProp);
(n_pDenS, KC);
(n_pDenT, KC);
(n_pDenU, KC);
(n_s12s, KSprod);
(n_a12a, KSprod);
(n_s23s, KSprod);
(n_a23a, KSprod);
(n_s13s, KSprod);
(n_a13a, KSprod);
(n_s213a, KSprod);
(n_s312a, KSprod);
(n_s242a, KSprod);
(n_s142a, KSprod);
(n_s241a, KSprod);
(n_sqrt2, KT);
(n_preTU, KT);
(n_preZ, KT);
(n_gL, KT);
(n_gR, KT)]
[n_echarge; n_massu; n_massh; n_widthh; n_massW; n_sinW; n_widthZ]
[(n_e, NT (ELocT n_echarge));
(n_mu, NT (ELocT n_massu));
(n_mh, NT (ELocT n_massh));
(n_wh, NT (ELocT n_widthh));
(n_MW, NT (ELocT n_massW));
(n_SW, NT (ELocT n_sinW));
(n_CW, NT (EUn SqrtT ((EUn D2T (ELit (1 # 1))) -t ((ELocT n_sinW) *t (ELocT n_sinW)))));
(n_MZ, NT ((ELocT n_massW) /t (EMemT n_CW)));
(n_WZ, NT (ELocT n_widthZ));
(n_propu, NProp (ELocT n_massu) (EUn I2T (EInt 0)))]
uZuh_ctor
[uZuh_set_masses; uZuh_set_momenta; uZuh_amp; uZuh_amp2].

(** ubdt::ubdt: SM/ubdt.cpp 32-45 *)
Definition ubdt_ctor : stmt :=
SMemT n_preW (((EMemT n_e) *t (EMemT n_e)) /t (((((EUn D2T (ELit (4 # 1))) *t (EMemT n_MW)) *t (EMemT n_MW)) *t (EMemT n_SW)) *t (EMemT n_SW))).
(** ubdt::set_masses: SM/ubdt.cpp 46-58 *)
Definition ubdt_set_masses : meth := mkMeth n_set_masses [(n_massu, PkT); (n_massd, PkT); (n_masst, PkT); (n_massb, PkT); (n_massW, PkT)]
(SMemT n_mu (ELocT n_massu);,
SMemT n_md (ELocT n_massd);,
SMemT n_mt (ELocT n_masst);,
SMemT n_mb (ELocT n_massb);,
SMemT n_MW (ELocT n_massW);,
SSetMass 0 (EMemT n_mu);,
SSetMass 1 (EMemT n_mb);,
SSetMass 2 (EMemT n_md);,
SSetMass 3 (EMemT n_mt);,
SPropMass n_prop (ELocT n_massW);,
SMemT n_preW (((EMemT n_e) *t (EMemT n_e)) /t (((((EUn D2T (ELit (4 # 1))) *t (EMemT n_MW)) *t (EMemT n_MW)) *t (EMemT n_SW)) *t (EMemT n_SW)))).
(** ubdt::set_momenta: SM/ubdt.cpp 59-77 *)
Definition ubdt_set_momenta : meth := mkMeth n_set_momenta [(n_mom1, PkMom); (n_mom2, PkMom); (n_mom3, PkMom); (n_mom4, PkMom)]
(SSetMomentum 0 n_mom1;,
SSetMomentum 1 n_mom2;,
SSetMomentum 2 n_mom3;,
SSetMomentum 3 n_mom4;,
SUpdate n_s34s;,
SUpdate n_a12a;,
SUpdate n_a13a;,
SUpdate n_s13s;,
SUpdate n_s24s;,
SUpdate n_a24a;,
SDeclT n_propPS 4;,
(SFor n_j (EInt 0) (EBin (CmpI CLt) (ELocI n_j) (EInt 4)) (EBin (OpI IAdd) (ELocI n_j) (EInt 1))
(SArrT n_propPS (AVar n_j) ((EArrT n_mom1 (AVar n_j)) -t (EArrT n_mom3 (AVar n_j)))));,
SMemC n_pDenT (EDen n_prop n_propPS)).
(** ubdt::amp: SM/ubdt.cpp 82-97 *)
Definition ubdt_amp : meth := mkMeth n_amp [(n_ds1, PkI); (n_ds2, PkI); (n_ds3, PkI); (n_ds4, PkI)]
(SReturnC ((((EMemT n_preW) *t (EUn D2T (ELit (2 # 1)))) *tc (((((((((EUn D2T (ELit (2 # 1))) *t (EMemT n_MW)) *t (EMemT n_MW)) *tc (EV n_s34s [(AVar n_ds3); (AVar n_ds4)])) *c (EV n_a12a [(AVar n_ds1); (AVar n_ds2)])) -c ((((EMemT n_md) *t (EMemT n_mt)) *tc (EV n_a13a [(AVar n_ds1); (AVar n_ds3)])) *c (EV n_a24a [(AVar n_ds2); (AVar n_ds4)]))) -c ((((EMemT n_mt) *t (EMemT n_mu)) *tc (EV n_s13s [(AVar n_ds1); (AVar n_ds3)])) *c (EV n_a24a [(AVar n_ds2); (AVar n_ds4)]))) -c ((((EMemT n_mb) *t (EMemT n_md)) *tc (EV n_a13a [(AVar n_ds1); (AVar n_ds3)])) *c (EV n_s24s [(AVar n_ds2); (AVar n_ds4)]))) -c ((((EMemT n_mu) *t (EMemT n_mb)) *tc (EV n_s13s [(AVar n_ds1); (AVar n_ds3)])) *c (EV n_s24s [(AVar n_ds2); (AVar n_ds4)])))) /c (EMemC n_pDenT))).
(** ubdt::amp2: SM/ubdt.cpp 100-116 *)
Definition ubdt_amp2 : meth := mkMeth n_amp2 []
(SLoc rT n_amp2 (EUn I2T (EInt 0));,
SDecl rC n_M;,
(SFor n_j1 (EUn NegI (EInt 1)) (EBin (CmpI CLe) (ELocI n_j1) (EInt 1)) (EBin (OpI IAdd) (ELocI n_j1) (EInt 2))
(SFor n_j2 (EUn NegI (EInt 1)) (EBin (CmpI CLe) (ELocI n_j2) (EInt 1)) (EBin (OpI IAdd) (ELocI n_j2) (EInt 2))
(SFor n_j3 (EUn NegI (EInt 1)) (EBin (CmpI CLe) (ELocI n_j3) (EInt 1)) (EBin (OpI IAdd) (ELocI n_j3) (EInt 2))
(SFor n_j4 (EUn NegI (EInt 1)) (EBin (CmpI CLe) (ELocI n_j4) (EInt 1)) (EBin (OpI IAdd) (ELocI n_j4) (EInt 2))
(SLoc rC n_M (ECall n_amp [(AVar n_j1); (AVar n_j2); (AVar n_j3); (AVar n_j4)]);,
SLoc rT n_amp2 ((ELocT n_amp2) +t (EUn Pow2T (EUn AbsC (ELocC n_M)))))))));,
SReturnT ((ELocT n_amp2) /t (EUn D2T (ELit (4 # 1))))).
(** members: SM/include/ubdt.h 26-32; initialisers: SM/ubdt.cpp 32-42 *)
Definition ubdt : cls := mkCls "ubdt"
[(n_e, KT);
(n_mu, KT);
(n_md, KT);
(n_mt, KT);
(n_mb, KT);
(n_MW, KT);
(n_WW, KT);
(n_SW, KT);
(n_preW, KT);
(n_p1, (KPart 0));
(n_p2, (KPart 1));
(n_p3, (KPart 2));
(n_p4, (KPart 3));
(n_prop, KProp);
(n_pDenT, KC);
(n_s34s, KSprod);
(n_a12a, KSprod);
(n_a13a, KSprod);
(n_s13s, KSprod);
(n_a24a, KSprod);
(n_s24s, KSprod)]
[n_echarge; n_massu; n_massd; n_masst; n_massb; n_massW; n_widthW; n_sinW]
[(n_e, NT (ELocT n_echarge));
(n_mu, NT (ELocT n_massu));
(n_md, NT (ELocT n_massd));
(n_mt, NT (ELocT n_masst));
(n_mb, NT (ELocT n_massb));
(n_MW, NT (ELocT n_massW));
(n_WW, NT (ELocT n_widthW));
(n_SW, NT (ELocT n_sinW));
(n_prop, NProp (ELocT n_massW) (ELocT n_widthW));
(n_p1, NPart (EMemT n_mu));
(n_p2, NPart (EMemT n_mb));
(n_p3, NPart (EMemT n_md));
(n_p4, NPart (EMemT n_mt));
(n_s34s, NSprod false 2 [] 3);
(n_a12a, NSprod true 0 [] 1);
(n_a13a, NSprod true 0 [] 2);
(n_s13s, NSprod false 0 [] 2);
(n_s24s, NSprod false 1 [] 3);
(n_a24a, NSprod true 1 [] 3)]
ubdt_ctor
[ubdt_set_masses; ubdt_set_momenta; ubdt_amp; ubdt_amp2].

(** ucuc::ucuc: SM/ucuc.cpp 32-59 *)
Definition ucuc_ctor : stmt :=
(SMemT n_MZ ((EMemT n_MW) /t (EMemT n_CW));,
SPropMass n_propZ (EMemT n_MZ);,
SMemT n_preh (((((EMemT n_e) *t (EMemT n_e)) *t (EMemT n_mu)) *t (EMemT n_mc)) /t (((((EUn D2T (ELit (4 # 1))) *t (EMemT n_MW)) *t (EMemT n_MW)) *t (EMemT n_SW)) *t (EMemT n_SW)));,
SMemT n_gL ((EUn D2T (ELit (1 # 1))) -t (((EUn D2T ((ELit (4 # 1)) /d (ELit (3 # 1)))) *t (EMemT n_SW)) *t (EMemT n_SW)));,
SMemT n_gR (((EUn D2T ((EUn NegD (ELit (4 # 1))) /d (ELit (3 # 1)))) *t (EMemT n_SW)) *t (EMemT n_SW));,
SMemT n_preZ (((EMemT n_e) *t (EMemT n_e)) /t (((((EUn D2T (ELit (4 # 1))) *t (EMemT n_CW)) *t (EMemT n_CW)) *t (EMemT n_SW)) *t (EMemT n_SW)));,
SMemT n_preZ0 (((((((EMemT n_preZ) *t ((EMemT n_gL) -t (EMemT n_gR))) *t ((EMemT n_gL) -t (EMemT n_gR))) *t (EMemT n_mu)) *t (EMemT n_mc)) /t (EMemT n_MZ)) /t (EMemT n_MZ))).
(** ucuc::set_masses: SM/ucuc.cpp 60-75 *)
Definition ucuc_set_masses : meth := mkMeth n_set_masses [(n_massu, PkT); (n_massc, PkT); (n_massh, PkT); (n_massW, PkT)]
(SMemT n_mu (ELocT n_massu);,
SMemT n_mc (ELocT n_massc);,
SMemT n_mh (ELocT n_massh);,
SPropMass n_proph (EMemT n_mh);,
SMemT n_MW (ELocT n_massW);,
SMemT n_MZ ((EMemT n_MW) /t (EMemT n_CW));,
SPropMass n_propZ (EMemT n_MZ);,
SSetMass 0 (EMemT n_mu);,
SSetMass 1 (EMemT n_mc);,
SSetMass 2 (EMemT n_mu);,
SSetMass 3 (EMemT n_mc);,
SMemT n_preh (((((EMemT n_e) *t (EMemT n_e)) *t (EMemT n_mu)) *t (EMemT n_mc)) /t (((((EUn D2T (ELit (4 # 1))) *t (EMemT n_MW)) *t (EMemT n_MW)) *t (EMemT n_SW)) *t (EMemT n_SW)));,
SMemT n_preZ0 (((((((EMemT n_preZ) *t ((EMemT n_gL) -t (EMemT n_gR))) *t ((EMemT n_gL) -t (EMemT n_gR))) *t (EMemT n_mu)) *t (EMemT n_mc)) /t (EMemT n_MZ)) /t (EMemT n_MZ))).
(** ucuc::set_momenta: SM/ucuc.cpp 76-101 *)
Definition ucuc_set_momenta : meth := mkMeth n_set_momenta [(n_mom1, PkMom); (n_mom2, PkMom); (n_mom3, PkMom); (n_mom4, PkMom)]
(SSetMomentum 0 n_mom1;,
SSetMomentum 1 n_mom2;,
SSetMomentum 2 n_mom3;,
SSetMomentum 3 n_mom4;,
SUpdate n_a13a;,
SUpdate n_s13s;,
SUpdate n_a14a;,
SUpdate n_s14s;,
SUpdate n_a23a;,
SUpdate n_s23s;,
SUpdate n_a24a;,
SUpdate n_s24s;,
SUpdate n_s12s;,
SUpdate n_a12a;,
SUpdate n_s34s;,
SUpdate n_a34a;,
SDeclT n_propP 4;,
(SFor n_j (EInt 0) (EBin (CmpI CLt) (ELocI n_j) (EInt 4)) (EBin (OpI IAdd) (ELocI n_j) (EInt 1))
(SArrT n_propP (AVar n_j) ((EArrT n_mom1 (AVar n_j)) -t (EArrT n_mom3 (AVar n_j)))));,
SMemC n_pDenTAG (EDen n_propAG n_propP);,
SMemC n_pDenTh (EDen n_proph n_propP);,
SMemC n_pDenTZ (EDen n_propZ n_propP)).
(** ucuc::amp_gluon: SM/ucuc.cpp 109-128 *)
Definition ucuc_amp_gluon : meth := mkMeth n_amp_gluon [(n_ds1, PkI); (n_ds2, PkI); (n_ds3, PkI); (n_ds4, PkI)]
(SLoc rT n_two (EUn I2T (EInt 2));,
SLoc rC n_amplitude (EBin OpTTC (EUn I2T (EInt 0)) (EUn I2T (EInt 0)));,
SLoc rC n_amplitude (((((EUn NegT (ELocT n_two)) *t (EMemT n_gs)) *t (EMemT n_gs)) *tc (((((EV n_a12a [(AVar n_ds1); (AVar n_ds2)]) *c (EV n_s34s [(AVar n_ds3); (AVar n_ds4)])) +c ((EV n_a14a [(AVar n_ds1); (AVar n_ds4)]) *c (EV n_s23s [(AVar n_ds2); (AVar n_ds3)]))) +c ((EV n_s12s [(AVar n_ds1); (AVar n_ds2)]) *c (EV n_a34a [(AVar n_ds3); (AVar n_ds4)]))) +c ((EV n_s14s [(AVar n_ds1); (AVar n_ds4)]) *c (EV n_a23a [(AVar n_ds2); (AVar n_ds3)])))) /c (EMemC n_pDenTAG));,
SReturnC (ELocC n_amplitude)).
(** ucuc::amp_rest: SM/ucuc.cpp 129-183 *)
Definition ucuc_amp_rest : meth := mkMeth n_amp_rest [(n_ds1, PkI); (n_ds2, PkI); (n_ds3, PkI); (n_ds4, PkI)]
(SLoc rT n_two (EUn I2T (EInt 2));,
SLoc rC n_amplitude (EBin OpTTC (EUn I2T (EInt 0)) (EUn I2T (EInt 0)));,
SLoc rC n_amplitude ((ELocC n_amplitude) +c (((((((EUn NegT (ELocT n_two)) *t (EMemT n_e)) *t (EMemT n_e)) *t (EUn D2T (ELit (4 # 1)))) /t (EUn D2T (ELit (9 # 1)))) *tc (((((EV n_a12a [(AVar n_ds1); (AVar n_ds2)]) *c (EV n_s34s [(AVar n_ds3); (AVar n_ds4)])) +c ((EV n_a14a [(AVar n_ds1); (AVar n_ds4)]) *c (EV n_s23s [(AVar n_ds2); (AVar n_ds3)]))) +c ((EV n_s12s [(AVar n_ds1); (AVar n_ds2)]) *c (EV n_a34a [(AVar n_ds3); (AVar n_ds4)]))) +c ((EV n_s14s [(AVar n_ds1); (AVar n_ds4)]) *c (EV n_a23a [(AVar n_ds2); (AVar n_ds3)])))) /c (EMemC n_pDenTAG)));,
SLoc rC n_amplitude ((ELocC n_amplitude) +c ((((EUn NegT (EMemT n_preh)) *tc ((EV n_s13s [(AVar n_ds1); (AVar n_ds3)]) -c (EV n_a13a [(AVar n_ds1); (AVar n_ds3)]))) *c ((EV n_s24s [(AVar n_ds2); (AVar n_ds4)]) -c (EV n_a24a [(AVar n_ds2); (AVar n_ds4)]))) /c (EMemC n_pDenTh)));,
SLoc rC n_amplitude ((ELocC n_amplitude) +c (((((EMemT n_preZ0) *tc ((EV n_a13a [(AVar n_ds1); (AVar n_ds3)]) +c (EV n_s13s [(AVar n_ds1); (AVar n_ds3)]))) *c ((EV n_a24a [(AVar n_ds2); (AVar n_ds4)]) +c (EV n_s24s [(AVar n_ds2); (AVar n_ds4)]))) /c (EMemC n_pDenTZ)) -c ((((ELocT n_two) *t (EMemT n_preZ)) *tc ((((((EMemT n_gL) *t (EMemT n_gL)) *tc (EV n_s34s [(AVar n_ds3); (AVar n_ds4)])) *c (EV n_a12a [(AVar n_ds1); (AVar n_ds2)])) +c (((EMemT n_gL) *t (EMemT n_gR)) *tc (((EV n_s14s [(AVar n_ds1); (AVar n_ds4)]) *c (EV n_a23a [(AVar n_ds2); (AVar n_ds3)])) +c ((EV n_s23s [(AVar n_ds2); (AVar n_ds3)]) *c (EV n_a14a [(AVar n_ds1); (AVar n_ds4)]))))) +c ((((EMemT n_gR) *t (EMemT n_gR)) *tc (EV n_s12s [(AVar n_ds1); (AVar n_ds2)])) *c (EV n_a34a [(AVar n_ds3); (AVar n_ds4)])))) /c (EMemC n_pDenTZ))));,
SReturnC (ELocC n_amplitude)).
(** ucuc::amp2: SM/ucuc.cpp 186-205 *)
Definition ucuc_amp2 : meth := mkMeth n_amp2 []
(SLoc rT n_amp2 (EUn I2T (EInt 0));,
SLoc rT n_two (EUn I2T (EInt 2));,
SLoc rT n_three (EUn I2T (EInt 3));,
SLoc rT n_nine (EUn I2T (EInt 9));,
SDecl rC n_M_rest;,
SDecl rC n_M_gluon;,
(SFor n_j1 (EUn NegI (EInt 1)) (EBin (CmpI CLe) (ELocI n_j1) (EInt 1)) (EBin (OpI IAdd) (ELocI n_j1) (EInt 2))
(SFor n_j2 (EUn NegI (EInt 1)) (EBin (CmpI CLe) (ELocI n_j2) (EInt 1)) (EBin (OpI IAdd) (ELocI n_j2) (EInt 2))
(SFor n_j3 (EUn NegI (EInt 1)) (EBin (CmpI CLe) (ELocI n_j3) (EInt 1)) (EBin (OpI IAdd) (ELocI n_j3) (EInt 2))
(SFor n_j4 (EUn NegI (EInt 1)) (EBin (CmpI CLe) (ELocI n_j4) (EInt 1)) (EBin (OpI IAdd) (ELocI n_j4) (EInt 2))
(SLoc rC n_M_rest (ECall n_amp_rest [(AVar n_j1); (AVar n_j2); (AVar n_j3); (AVar n_j4)]);,
SLoc rC n_M_gluon (ECall n_amp_gluon [(AVar n_j1); (AVar n_j2); (AVar n_j3); (AVar n_j4)]);,
SLoc rT n_amp2 ((ELocT n_amp2) +t ((ELocT n_nine) *t (EUn Pow2T (EUn AbsC (ELocC n_M_rest)))));,
SLoc rT n_amp2 ((ELocT n_amp2) +t ((ELocT n_two) *t (EUn Pow2T (EUn AbsC (ELocC n_M_gluon))))))))));,
SReturnT ((ELocT n_amp2) /t (EUn D2T (ELit (36 # 1))))).
(** members: SM/include/ucuc.h 26-33; initialisers: SM/ucuc.cpp 32-48 *)
Definition ucuc : cls := mkCls "ucuc"
[(n_e, KT);
(n_gs, KT);
(n_mu, KT);
(n_mc, KT);
(n_mh, KT);
(n_wh, KT);
(n_MZ, KT);
(n_WZ, KT);
(n_MW, KT);
(n_SW, KT);
(n_CW, KT);
(n_p1, (KPart 0));
(n_p2, (KPart 1));
(n_p3, (KPart 2));
(n_p4, (KPart 3));
(n_propAG, KProp);
(n_proph, KProp);
(n_propZ, KProp);
(n_pDenTAG, KC);
(n_pDenTh, KC);
(n_pDenTZ, KC);
(n_a13a, KSprod);
(n_s13s, KSprod);
(n_a14a, KSprod);
(n_s14s, KSprod);
(n_a23a, KSprod);
(n_s23s, KSprod);
(n_a24a, KSprod);
(n_s24s, KSprod);
(n_s12s, KSprod);
(n_a12a, KSprod);
(n_s34s, KSprod);
(n_a34a, KSprod);
(n_preh, KT);
(n_gL, KT);
(n_gR, KT);
(n_preZ, KT);
(n_preZ0, KT)]
[n_echarge; n_gscharge; n_massu; n_massc; n_massh; n_widthh; n_massW; n_sinW; n_widthZ]
[(n_e, NT (ELocT n_echarge));
(n_gs, NT (ELocT n_gscharge));
(n_mu, NT (ELocT n_massu));
(n_mc, NT (ELocT n_massc));
(n_mh, NT (ELocT n_massh));
(n_wh, NT (ELocT n_widthh));
(n_MW, NT (ELocT n_massW));
(n_SW, NT (ELocT n_sinW));
(n_CW, NT (EUn SqrtT ((EUn D2T (ELit (1 # 1))) -t ((ELocT n_sinW) *t (ELocT n_sinW)))));
(n_WZ, NT (ELocT n_widthZ));
(n_propAG, NProp (EUn I2T (EInt 0)) (EUn I2T (EInt 0)));
(n_proph, NProp (EMemT n_mh) (EMemT n_wh));
(n_p1, NPart (EMemT n_mu));
(n_p2, NPart (EMemT n_mc));
(n_p3, NPart (EMemT n_mu));
(n_p4, NPart (EMemT n_mc));
(n_a13a, NSprod true 0 [] 2);
(n_s13s, NSprod false 0 [] 2);
(n_a14a, NSprod true 0 [] 3);
(n_s14s, NSprod false 0 [] 3);
(n_a23a, NSprod true 1 [] 2);
(n_s23s, NSprod false 1 [] 2);
(n_a24a, NSprod true 1 [] 3);
(n_s24s, NSprod false 1 [] 3);
(n_s12s, NSprod false 0 [] 1);
(n_a12a, NSprod true 0 [] 1);
(n_s34s, NSprod false 2 [] 3);
(n_a34a, NSprod true 2 [] 3)]
ucuc_ctor
[ucuc_set_masses; ucuc_set_momenta; ucuc_amp_gluon; ucuc_amp_rest; ucuc_amp2].

(** udAW::udAW: SM/udAW.cpp 32-53 *)
Definition udAW_ctor : stmt :=
(SPropNew n_propW (EMemT n_MW) (EMemT n_WW);,
SPropNew n_propu (EMemT n_mu) (EUn I2T (EInt 0));,
SPropNew n_propd (EMemT n_md) (EUn I2T (EInt 0));,
SParticle 0 (EMemT n_mu);,
SParticle 1 (EMemT n_md);,
SParticle 2 (EUn I2T (EInt 0));,
SParticle 3 (EMemT n_MW);,
SSprod n_a42a true 3 [] 1;,
SSprod n_s41s false 3 [] 0;,
SSprod n_s34s false 2 [] 3;,
SSprod n_s31s false 2 [] 0;,
SSprod n_s3123s false 2 [0; 1] 2;,
SSprod n_a3123a true 2 [0; 1] 2;,
SSprod n_a34a true 2 [] 3;,
SSprod n_a32a true 2 [] 1;,
SMemT n_pre ((((EUn D2T (EUn SqrtD (ELit (2 # 1)))) *t (EMemT n_e)) *t (EMemT n_e)) /t ((EMemT n_MW) *t (EMemT n_SW)))).
(** udAW::set_masses: SM/udAW.cpp 54-66 *)
Definition udAW_set_masses : meth := mkMeth n_set_masses [(n_massu, PkT); (n_massd, PkT); (n_massW, PkT)]
(SMemT n_mu (ELocT n_massu);,
SMemT n_md (ELocT n_massd);,
SMemT n_MW (ELocT n_massW);,
SSetMass 0 (EMemT n_mu);,
SSetMass 1 (EMemT n_md);,
SSetMass 3 (EMemT n_MW);,
SPropMass n_propW (EMemT n_MW);,
SPropMass n_propu (EMemT n_mu);,
SPropMass n_propd (EMemT n_md);,
SMemT n_pre ((((EUn D2T (EUn SqrtD (ELit (2 # 1)))) *t (EMemT n_e)) *t (EMemT n_e)) /t ((EMemT n_MW) *t (EMemT n_SW)))).
(** udAW::set_momenta: SM/udAW.cpp 67-96 *)
Definition udAW_set_momenta : meth := mkMeth n_set_momenta [(n_mom1, PkMom); (n_mom2, PkMom); (n_mom3, PkMom); (n_mom4, PkMom)]
(SLoc rT n_one (EUn I2T (EInt 1));,
SLoc rT n_two (EUn I2T (EInt 2));,
SLoc rT n_three (EUn I2T (EInt 3));,
SSetMomentum 0 n_mom1;,
SSetMomentum 1 n_mom2;,
SSetMomentum 2 n_mom3;,
SSetMomentum 3 n_mom4;,
SUpdate n_a42a;,
SUpdate n_s41s;,
SUpdate n_s34s;,
SUpdate n_s31s;,
SUpdate n_s3123s;,
SUpdate n_a3123a;,
SUpdate n_a34a;,
SUpdate n_a32a;,
SDeclT n_propSP 4;,
SDeclT n_propTP 4;,
SDeclT n_propUP 4;,
(SFor n_j (EInt 0) (EBin (CmpI CLt) (ELocI n_j) (EInt 4)) (EBin (OpI IAdd) (ELocI n_j) (EInt 1))
(SArrT n_propSP (AVar n_j) ((EArrT n_mom1 (AVar n_j)) +t (EArrT n_mom2 (AVar n_j)));,
SArrT n_propTP (AVar n_j) ((EArrT n_mom1 (AVar n_j)) -t (EArrT n_mom3 (AVar n_j)));,
SArrT n_propUP (AVar n_j) ((EArrT n_mom1 (AVar n_j)) -t (EArrT n_mom4 (AVar n_j)))));,
SMemC n_pDenS (EDen n_propW n_propSP);,
SMemC n_pDenT (EDen n_propu n_propTP);,
SMemC n_pDenU (EDen n_propd n_propUP);,
SMemC n_prop (((((ELocT n_one) /t (ELocT n_three)) /tc (EMemC n_pDenS)) /c (EMemC n_pDenU)) -c ((((ELocT n_two) /t (ELocT n_three)) /tc (EMemC n_pDenS)) /c (EMemC n_pDenT)));,
SMemC n_propAp (((ELocT n_one) /tc (EMemC n_pDenS)) +c (((ELocT n_two) /t (ELocT n_three)) /tc (EMemC n_pDenT)));,
SMemC n_propAm (((ELocT n_one) /tc (EMemC n_pDenS)) +c (((ELocT n_one) /t (ELocT n_three)) /tc (EMemC n_pDenU)))).
(** udAW::amp: SM/udAW.cpp 101-168 *)
Definition udAW_amp : meth := mkMeth n_amp [(n_ds1, PkI); (n_ds2, PkI); (n_ds3, PkI); (n_ds4, PkI)]
(SLoc rC n_amplitude (EBin OpTTC (EUn I2T (EInt 0)) (EUn I2T (EInt 0)));,
SDecl rI n_ds4a;,
SDecl rI n_ds4b;,
SLoc rI n_nCombs (ENLoops [(AVar n_ds4)]);,
SLoc rT n_normFactor (ENorm [(AVar n_ds4)]);,
(SFor n_i (EInt 0) (EBin (CmpI CLt) (ELocI n_i) (ELocI n_nCombs)) (EBin (OpI IAdd) (ELocI n_i) (EInt 1))
(SSpins [(n_ds4, n_ds4a, n_ds4b)] (AVar n_i);,
(SIf (EBin (CmpI CGt) (ELocI n_ds3) (EInt 0))
(SLoc rC n_amplitude ((ELocC n_amplitude) +c (((((((ELocT n_normFactor) *t (EMemT n_pre)) *tc (EV n_a42a [(AVar n_ds4a); (AVar n_ds2)])) *c (EV n_s41s [(AVar n_ds4b); (AVar n_ds1)])) *c (EV n_s3123s [])) *c (EMemC n_prop)) -c ((((((ELocT n_normFactor) *t (EMemT n_pre)) *tc (EV n_s34s [(AVar n_ds4a)])) *c (EV n_s31s [(AVar n_ds1)])) *c (EV n_a42a [(AVar n_ds4b); (AVar n_ds2)])) *c (EMemC n_propAp)))))
((SIf (EBin (CmpI CLt) (ELocI n_ds3) (EInt 0))
(SLoc rC n_amplitude ((ELocC n_amplitude) +c (((((((ELocT n_normFactor) *t (EMemT n_pre)) *tc (EV n_a42a [(AVar n_ds4a); (AVar n_ds2)])) *c (EV n_s41s [(AVar n_ds4b); (AVar n_ds1)])) *c (EV n_a3123a [])) *c (EMemC n_prop)) -c ((((((ELocT n_normFactor) *t (EMemT n_pre)) *tc (EV n_a34a [(AVar n_ds4a)])) *c (EV n_a32a [(AVar n_ds2)])) *c (EV n_s41s [(AVar n_ds4b); (AVar n_ds1)])) *c (EMemC n_propAm)))))
(SSkip))))));,
SReturnC (ELocC n_amplitude)).
(** udAW::amp2: SM/udAW.cpp 171-188 *)
Definition udAW_amp2 : meth := mkMeth n_amp2 []
(SLoc rT n_three (EUn I2T (EInt 3));,
SLoc rT n_amp2 (EUn I2T (EInt 0));,
SDecl rC n_M;,
(SFor n_j1 (EUn NegI (EInt 1)) (EBin (CmpI CLe) (ELocI n_j1) (EInt 1)) (EBin (OpI IAdd) (ELocI n_j1) (EInt 2))
(SFor n_j2 (EUn NegI (EInt 1)) (EBin (CmpI CLe) (ELocI n_j2) (EInt 1)) (EBin (OpI IAdd) (ELocI n_j2) (EInt 2))
(SFor n_j3 (EUn NegI (EInt 2)) (EBin (CmpI CLe) (ELocI n_j3) (EInt 2)) (EBin (OpI IAdd) (ELocI n_j3) (EInt 4))
(SFor n_j4 (EUn NegI (EInt 2)) (EBin (CmpI CLe) (ELocI n_j4) (EInt 2)) (EBin (OpI IAdd) (ELocI n_j4) (EInt 2))
(SLoc rC n_M (ECall n_amp [(AVar n_j1); (AVar n_j2); (AVar n_j3); (AVar n_j4)]);,
SLoc rT n_amp2 ((ELocT n_amp2) +t ((ELocT n_three) *t (EUn Pow2T (EUn AbsC (ELocC n_M))))))))));,
SReturnT ((ELocT n_amp2) /t (EUn D2T (ELit (36 # 1))))).
(** members: SM/include/udAW.h 26-34; initialisers: SM/udAW.cpp 32-33 *)
Definition udAW : cls := mkCls "udAW"
[(n_e, KT);
(n_mu, KT);
(n_md, KT);
(n_MW, KT);
(n_SW, KT);
(n_WW, KT);
(n_pre, KT);
(n_p1, (KPart 0));
(n_p2, (KPart 1));
(n_p3, (KPart 2));
(n_p4, (KPart 3));
(n_propW, KProp);
(n_propu, KProp);
(n_propd, KProp);
(n_pDenS, KC);
(n_pDenT, KC);
(n_pDenU, KC);
(n_prop, KC);
(n_propAp, KC);
(n_propAm, KC);
(n_a42a, KSprod);
(n_s41s, KSprod);
(n_s34s, KSprod);
(n_s31s, KSprod);
(n_s3123s, KSprod);
(n_a3123a, KSprod);
(n_a34a, KSprod);
(n_a32a, KSprod)]
[n_echarge; n_massu; n_massd; n_massW; n_sinW; n_widthW]
[(n_e, NT (ELocT n_echarge));
(n_mu, NT (ELocT n_massu));
(n_md, NT (ELocT n_massd));
(n_MW, NT (ELocT n_massW));
(n_SW, NT (ELocT n_sinW));
(n_WW, NT (ELocT n_widthW))]
udAW_ctor
[udAW_set_masses; udAW_set_momenta; udAW_amp; udAW_amp2].

(** udWh::udWh: SM/udWh.cpp 32-52 *)
Definition udWh_ctor : stmt :=
(SParticle 0 (EMemT n_mu);,
SParticle 1 (EMemT n_md);,
SParticle 2 (EMemT n_MW);,
SParticle 3 (EMemT n_mh);,
SSprod n_a13a true 0 [] 2;,
SSprod n_s23s false 1 [] 2;,
SSprod n_a12a true 0 [] 1;,
SSprod n_s12s false 0 [] 1;,
SSprod n_s343a false 2 [3] 2;,
SSprod n_s342a false 2 [3] 1;,
SSprod n_s143a false 0 [3] 2;,
SMemT n_preW (((EMemT n_e) *t (EMemT n_e)) /t (((((EUn D2T (ELit (2 # 1))) *t (EMemT n_MW)) *t (EMemT n_MW)) *t (EMemT n_SW)) *t (EMemT n_SW)));,
SMemT n_preu ((EMemT n_mu) *t (EMemT n_preW));,
SMemT n_pred ((EMemT n_md) *t (EMemT n_preW))).
(** udWh::set_masses: SM/udWh.cpp 53-69 *)
Definition udWh_set_masses : meth := mkMeth n_set_masses [(n_massu, PkT); (n_massd, PkT); (n_massh, PkT); (n_massW, PkT)]
(SMemT n_mu (ELocT n_massu);,
SMemT n_md (ELocT n_massd);,
SMemT n_mh (ELocT n_massh);,
SMemT n_MW (ELocT n_massW);,
SSetMass 0 (EMemT n_mu);,
SSetMass 1 (EMemT n_md);,
SSetMass 2 (EMemT n_MW);,
SSetMass 3 (EMemT n_mh);,
SPropMass n_propu (EMemT n_mu);,
SPropMass n_propd (EMemT n_md);,
SPropMass n_propW (EMemT n_MW);,
SMemT n_preW (((EMemT n_e) *t (EMemT n_e)) /t (((((EUn D2T (ELit (2 # 1))) *t (EMemT n_MW)) *t (EMemT n_MW)) *t (EMemT n_SW)) *t (EMemT n_SW)));,
SMemT n_preu ((EMemT n_mu) *t (EMemT n_preW));,
SMemT n_pred ((EMemT n_md) *t (EMemT n_preW))).
(** udWh::set_momenta: SM/udWh.cpp 70-96 *)
Definition udWh_set_momenta : meth := mkMeth n_set_momenta [(n_mom1, PkMom); (n_mom2, PkMom); (n_mom3, PkMom); (n_mom4, PkMom)]
(SSetMomentum 0 n_mom1;,
SSetMomentum 1 n_mom2;,
SSetMomentum 2 n_mom3;,
SSetMomentum 3 n_mom4;,
SUpdate n_a13a;,
SUpdate n_s23s;,
SUpdate n_a12a;,
SUpdate n_s12s;,
SUpdate n_s343a;,
SUpdate n_s342a;,
SUpdate n_s143a;,
SDeclT n_propSP 4;,
SDeclT n_propTP 4;,
SDeclT n_propUP 4;,
(SFor n_j (EInt 0) (EBin (CmpI CLt) (ELocI n_j) (EInt 4)) (EBin (OpI IAdd) (ELocI n_j) (EInt 1))
(SArrT n_propSP (AVar n_j) ((EArrT n_mom1 (AVar n_j)) +t (EArrT n_mom2 (AVar n_j)));,
SArrT n_propTP (AVar n_j) ((EArrT n_mom1 (AVar n_j)) -t (EArrT n_mom3 (AVar n_j)));,
SArrT n_propUP (AVar n_j) ((EArrT n_mom1 (AVar n_j)) -t (EArrT n_mom4 (AVar n_j)))));,
SMemC n_pDenS (EDen n_propW n_propSP);,
SMemC n_pDenU (EDen n_propu n_propUP);,
SMemC n_pDenT (EDen n_propd n_propTP)).
(** udWh::amp: SM/udWh.cpp 101-140 *)
Definition udWh_amp : meth := mkMeth n_amp [(n_ds1, PkI); (n_ds2, PkI); (n_ds3, PkI)]
(SLoc rC n_amplitude (EBin OpTTC (EUn I2T (EInt 0)) (EUn I2T (EInt 0)));,
SDecl rI n_ds3a;,
SDecl rI n_ds3b;,
SLoc rT n_two (EUn I2T (EInt 2));,
SLoc rI n_nCombs (ENLoops [(AVar n_ds3)]);,
SLoc rT n_normFactor (ENorm [(AVar n_ds3)]);,
(SFor n_i (EInt 0) (EBin (CmpI CLt) (ELocI n_i) (ELocI n_nCombs)) (EBin (OpI IAdd) (ELocI n_i) (EInt 1))
(SSpins [(n_ds3, n_ds3a, n_ds3b)] (AVar n_i);,
SLoc rC n_amplitude ((ELocC n_amplitude) +c ((((ELocT n_normFactor) *t (EMemT n_preW)) *tc ((((((ELocT n_two) *t (EMemT n_MW)) *t (EMemT n_MW)) *tc (EV n_a13a [(AVar n_ds1); (AVar n_ds3a)])) *c (EV n_s23s [(AVar n_ds2); (AVar n_ds3b)])) -c ((((EMemT n_md) *tc (EV n_a12a [(AVar n_ds1); (AVar n_ds2)])) -c ((EMemT n_mu) *tc (EV n_s12s [(AVar n_ds1); (AVar n_ds2)]))) *c (EV n_s343a [(AVar n_ds3a); (AVar n_ds3b)])))) /c (EMemC n_pDenS)));,
SLoc rC n_amplitude ((ELocC n_amplitude) +c (((((ELocT n_normFactor) *t (EMemT n_pred)) *tc (EV n_a13a [(AVar n_ds1); (AVar n_ds3a)])) *c ((((ELocT n_two) *t (EMemT n_md)) *tc (EV n_s23s [(AVar n_ds2); (AVar n_ds3b)])) -c (EV n_s342a [(AVar n_ds3b); (AVar n_ds2)]))) /c (EMemC n_pDenT)));,
SLoc rC n_amplitude ((ELocC n_amplitude) +c (((((ELocT n_normFactor) *t (EMemT n_preu)) *tc (EV n_s23s [(AVar n_ds2); (AVar n_ds3a)])) *c ((((ELocT n_two) *t (EMemT n_mu)) *tc (EV n_a13a [(AVar n_ds1); (AVar n_ds3b)])) -c (EV n_s143a [(AVar n_ds1); (AVar n_ds3b)]))) /c (EMemC n_pDenU)))));,
SReturnC (ELocC n_amplitude)).
(** udWh::amp2: SM/udWh.cpp 143-159 *)
Definition udWh_amp2 : meth := mkMeth n_amp2 []
(SLoc rT n_three (EUn I2T (EInt 3));,
SLoc rT n_amp2 (EUn I2T (EInt 0));,
SDecl rC n_M;,
(SFor n_j1 (EUn NegI (EInt 1)) (EBin (CmpI CLe) (ELocI n_j1) (EInt 1)) (EBin (OpI IAdd) (ELocI n_j1) (EInt 2))
(SFor n_j2 (EUn NegI (EInt 1)) (EBin (CmpI CLe) (ELocI n_j2) (EInt 1)) (EBin (OpI IAdd) (ELocI n_j2) (EInt 2))
(SFor n_j3 (EUn NegI (EInt 2)) (EBin (CmpI CLe) (ELocI n_j3) (EInt 2)) (EBin (OpI IAdd) (ELocI n_j3) (EInt 2))
(SLoc rC n_M (ECall n_amp [(AVar n_j1); (AVar n_j2); (AVar n_j3)]);,
SLoc rT n_amp2 ((ELocT n_amp2) +t ((ELocT n_three) *t (EUn Pow2T (EUn AbsC (ELocC n_M)))))))));,
SReturnT ((ELocT n_amp2) /t (EUn D2T (ELit (36 # 1))))).
(** members: SM/include/udWh.h 26-37; initialisers: SM/udWh.cpp 32-33 *)
Definition udWh : cls := mkCls "udWh"
[(n_e, KT);
(n_mu, KT);
(n_md, KT);
(n_mh, KT);
(n_MW, KT);
(n_WW, KT);
(n_SW, KT);
(n_p1, (KPart 0));
(n_p2, (KPart 1));
(n_p3, (KPart 2));
(n_p4, (KPart 3));
(n_propu, KProp);
(n_propd, KProp);
(n_propW, KProp);
(n_pDenS, KC);
(n_pDenU, KC);
(n_pDenT, KC);
(n_a13a, KSprod);
(n_s23s, KSprod);
(n_a12a, KSprod);
(n_s12s, KSprod);
(n_s343a, KSprod);
(n_s342a, KSprod);
(n_s143a, KSprod);
(n_preu, KT);
(n_pred, KT);
(n_preW, KT)]
[n_echarge; n_massu; n_massd; n_massh; n_massW; n_widthW; n_sinW]
[(n_e, NT (ELocT n_echarge));
(n_mu, NT (ELocT n_massu));
(n_md, NT (ELocT n_massd));
(n_mh, NT (ELocT n_massh));
(n_MW, NT (ELocT n_massW));
(n_WW, NT (ELocT n_widthW));
(n_SW, NT (ELocT n_sinW));
(n_propu, NProp (ELocT n_massu) (EUn I2T (EInt 0)));
(n_propd, NProp (ELocT n_massd) (EUn I2T (EInt 0)));
(n_propW, NProp (ELocT n_massW) (ELocT n_widthW))]
udWh_ctor
[udWh_set_masses; udWh_set_momenta; udWh_amp; udWh_amp2].

(** udZW::udZW: SM/udZW.cpp 32-65 *)
Definition udZW_ctor : stmt :=
(SMemT n_CW (EUn SqrtT ((EUn D2T (ELit (1 # 1))) -t ((EMemT n_SW) *t (EMemT n_SW))));,
SMemT n_MZ ((EMemT n_MW) /t (EMemT n_CW));,
SPropNew n_propW (EMemT n_MW) (EMemT n_WW);,
SPropNew n_propu (EMemT n_mu) (EUn I2T (EInt 0));,
SPropNew n_propd (EMemT n_md) (EUn I2T (EInt 0));,
SParticle 0 (EMemT n_mu);,
SParticle 1 (EMemT n_md);,
SParticle 2 (EMemT n_MZ);,
SParticle 3 (EMemT n_MW);,
SSprod n_a12a true 0 [] 1;,
SSprod n_a13a true 0 [] 2;,
SSprod n_a23a true 1 [] 2;,
SSprod n_a24a true 1 [] 3;,
SSprod n_a34a true 2 [] 3;,
SSprod n_s12s false 0 [] 1;,
SSprod n_s13s false 0 [] 2;,
SSprod n_s14s false 0 [] 3;,
SSprod n_s23s false 1 [] 2;,
SSprod n_s34s false 2 [] 3;,
SSprod n_s132a false 0 [2] 1;,
SSprod n_s314a false 2 [0] 3;,
SSprod n_s413a false 3 [0] 2;,
SMemT n_preud (((EMemT n_e) *t (EMemT n_e)) /t (((((EUn D2T (EUn SqrtD (ELit (2 # 1)))) *t (EMemT n_MW)) *t (EMemT n_MW)) *t (EMemT n_SW)) *t (EMemT n_SW)));,
SMemT n_preW ((EMemT n_preud) /t ((EMemT n_MZ) *t (EMemT n_MZ)));,
SMemT n_gLu (((((EUn D2T (EUn NegD (ELit (2 # 1)))) *t (EMemT n_Qu)) *t (EMemT n_SW)) *t (EMemT n_SW)) +t (EUn D2T (ELit (1 # 1))));,
SMemT n_gRu ((((EUn D2T (EUn NegD (ELit (2 # 1)))) *t (EMemT n_Qu)) *t (EMemT n_SW)) *t (EMemT n_SW));,
SMemT n_gLd (((((EUn D2T (EUn NegD (ELit (2 # 1)))) *t (EMemT n_Qd)) *t (EMemT n_SW)) *t (EMemT n_SW)) -t (EUn D2T (ELit (1 # 1))));,
SMemT n_gRd ((((EUn D2T (EUn NegD (ELit (2 # 1)))) *t (EMemT n_Qd)) *t (EMemT n_SW)) *t (EMemT n_SW))).
(** udZW::set_masses: SM/udZW.cpp 66-81 *)
Definition udZW_set_masses : meth := mkMeth n_set_masses [(n_massu, PkT); (n_massd, PkT); (n_massW, PkT)]
(SMemT n_mu (ELocT n_massu);,
SMemT n_md (ELocT n_massd);,
SMemT n_MW (ELocT n_massW);,
SMemT n_MZ ((EMemT n_MW) /t (EMemT n_CW));,
SSetMass 0 (EMemT n_mu);,
SSetMass 1 (EMemT n_md);,
SSetMass 2 (EMemT n_MZ);,
SSetMass 3 (EMemT n_MW);,
SPropMass n_propW (EMemT n_MW);,
SPropMass n_propu (EMemT n_mu);,
SPropMass n_propd (EMemT n_md);,
SMemT n_preud (((EMemT n_e) *t (EMemT n_e)) /t (((((EUn D2T (EUn SqrtD (ELit (2 # 1)))) *t (EMemT n_MW)) *t (EMemT n_MW)) *t (EMemT n_SW)) *t (EMemT n_SW)));,
SMemT n_preW ((EMemT n_preud) /t ((EMemT n_MZ) *t (EMemT n_MZ)))).
(** udZW::set_momenta: SM/udZW.cpp 82-113 *)
Definition udZW_set_momenta : meth := mkMeth n_set_momenta [(n_mom1, PkMom); (n_mom2, PkMom); (n_mom3, PkMom); (n_mom4, PkMom)]
(SLoc rT n_one (EUn I2T (EInt 1));,
SLoc rT n_two (EUn I2T (EInt 2));,
SLoc rT n_three (EUn I2T (EInt 3));,
SSetMomentum 0 n_mom1;,
SSetMomentum 1 n_mom2;,
SSetMomentum 2 n_mom3;,
SSetMomentum 3 n_mom4;,
SUpdate n_a12a;,
SUpdate n_a13a;,
SUpdate n_a23a;,
SUpdate n_a24a;,
SUpdate n_a34a;,
SUpdate n_s12s;,
SUpdate n_s13s;,
SUpdate n_s14s;,
SUpdate n_s23s;,
SUpdate n_s34s;,
SUpdate n_s132a;,
SUpdate n_s314a;,
SUpdate n_s413a;,
SDeclT n_propSP 4;,
SDeclT n_propTP 4;,
SDeclT n_propUP 4;,
(SFor n_j (EInt 0) (EBin (CmpI CLt) (ELocI n_j) (EInt 4)) (EBin (OpI IAdd) (ELocI n_j) (EInt 1))
(SArrT n_propSP (AVar n_j) ((EArrT n_mom1 (AVar n_j)) +t (EArrT n_mom2 (AVar n_j)));,
SArrT n_propTP (AVar n_j) ((EArrT n_mom1 (AVar n_j)) -t (EArrT n_mom3 (AVar n_j)));,
SArrT n_propUP (AVar n_j) ((EArrT n_mom1 (AVar n_j)) -t (EArrT n_mom4 (AVar n_j)))));,
SMemC n_pDenS (EDen n_propW n_propSP);,
SMemC n_pDenT (EDen n_propu n_propTP);,
SMemC n_pDenU (EDen n_propd n_propUP)).
(** udZW::amp: SM/udZW.cpp 118-171 *)
Definition udZW_amp : meth := mkMeth n_amp [(n_ds1, PkI); (n_ds2, PkI); (n_ds3, PkI); (n_ds4, PkI)]
(SLoc rT n_two (EUn I2T (EInt 2));,
SLoc rC n_amplitude (EBin OpTTC (EUn I2T (EInt 0)) (EUn I2T (EInt 0)));,
SDecl rI n_ds3a;,
SDecl rI n_ds3b;,
SDecl rI n_ds4a;,
SDecl rI n_ds4b;,
SLoc rI n_nCombs (ENLoops [(AVar n_ds3); (AVar n_ds4)]);,
SLoc rT n_normFactor (ENorm [(AVar n_ds3); (AVar n_ds4)]);,
(SFor n_i (EInt 0) (EBin (CmpI CLt) (ELocI n_i) (ELocI n_nCombs)) (EBin (OpI IAdd) (ELocI n_i) (EInt 1))
(SSpins [(n_ds3, n_ds3a, n_ds3b); (n_ds4, n_ds4a, n_ds4b)] (AVar n_i);,
SLoc rC n_amplitude ((ELocC n_amplitude) +c ((((ELocT n_normFactor) *t (EMemT n_preW)) *tc ((((((((ELocT n_two) *tc (((EMemT n_MW) *tc (EV n_a34a [(AVar n_ds3a); (AVar n_ds4b)])) +c ((EMemT n_MZ) *tc (EV n_s34s [(AVar n_ds3a); (AVar n_ds4b)])))) *ct (EMemT n_MW)) *ct (EMemT n_MW)) *c (EV n_a24a [(AVar n_ds2); (AVar n_ds4a)])) *c (EV n_s13s [(AVar n_ds1); (AVar n_ds3b)])) +c ((((((ELocT n_two) *tc (((EMemT n_MZ) *tc (EV n_a34a [(AVar n_ds3a); (AVar n_ds4b)])) +c ((EMemT n_MW) *tc (EV n_s34s [(AVar n_ds3a); (AVar n_ds4b)])))) *ct (EMemT n_MW)) *ct (EMemT n_MW)) *c (EV n_a23a [(AVar n_ds2); (AVar n_ds3b)])) *c (EV n_s14s [(AVar n_ds1); (AVar n_ds4a)]))) +c (((EV n_a34a [(AVar n_ds3a); (AVar n_ds4a)]) *c (EV n_s34s [(AVar n_ds3b); (AVar n_ds4b)])) *c (((((((EMemT n_MZ) *t (EMemT n_MZ)) -t (((ELocT n_two) *t (EMemT n_MW)) *t (EMemT n_MW))) *t (EMemT n_mu)) *tc (EV n_a12a [(AVar n_ds1); (AVar n_ds2)])) +c ((((((ELocT n_two) *t (EMemT n_MW)) *t (EMemT n_MW)) -t ((EMemT n_MZ) *t (EMemT n_MZ))) *t (EMemT n_md)) *tc (EV n_s12s [(AVar n_ds1); (AVar n_ds2)]))) +c ((((ELocT n_two) *t (EMemT n_MW)) *t (EMemT n_MW)) *tc (EV n_s132a [(AVar n_ds1); (AVar n_ds2)])))))) /c (EMemC n_pDenS)));,
SLoc rC n_amplitude ((ELocC n_amplitude) +c (((((EUn NegT (ELocT n_normFactor)) *t (EMemT n_preud)) *tc (EV n_a24a [(AVar n_ds2); (AVar n_ds4a)])) *c (((((EMemT n_gRu) *t (EMemT n_mu)) *tc (EV n_a13a [(AVar n_ds1); (AVar n_ds3b)])) *c (EV n_s34s [(AVar n_ds3a); (AVar n_ds4b)])) -c (((EMemT n_gLu) *tc (EV n_s13s [(AVar n_ds1); (AVar n_ds3a)])) *c (((EMemT n_MZ) *tc (EV n_s34s [(AVar n_ds3b); (AVar n_ds4b)])) -c (EV n_s413a [(AVar n_ds4b); (AVar n_ds3b)]))))) /c (EMemC n_pDenT)));,
SLoc rC n_amplitude ((ELocC n_amplitude) +c (((((ELocT n_normFactor) *t (EMemT n_preud)) *tc (EV n_s14s [(AVar n_ds1); (AVar n_ds4a)])) *c (((((EMemT n_gRd) *t (EMemT n_md)) *tc (EV n_a34a [(AVar n_ds3a); (AVar n_ds4b)])) *c (EV n_s23s [(AVar n_ds2); (AVar n_ds3b)])) -c (((EMemT n_gLd) *tc (EV n_a23a [(AVar n_ds2); (AVar n_ds3a)])) *c (((EMemT n_MW) *tc (EV n_s34s [(AVar n_ds3b); (AVar n_ds4b)])) +c (EV n_s314a [(AVar n_ds3b); (AVar n_ds4b)]))))) /c (EMemC n_pDenU)))));,
SReturnC (ELocC n_amplitude)).
(** udZW::amp2: SM/udZW.cpp 174-191 *)
Definition udZW_amp2 : meth := mkMeth n_amp2 []
(SLoc rT n_three (EUn I2T (EInt 3));,
SLoc rT n_amp2 (EUn I2T (EInt 0));,
SDecl rC n_M;,
(SFor n_j1 (EUn NegI (EInt 1)) (EBin (CmpI CLe) (ELocI n_j1) (EInt 1)) (EBin (OpI IAdd) (ELocI n_j1) (EInt 2))
(SFor n_j2 (EUn NegI (EInt 1)) (EBin (CmpI CLe) (ELocI n_j2) (EInt 1)) (EBin (OpI IAdd) (ELocI n_j2) (EInt 2))
(SFor n_j3 (EUn NegI (EInt 2)) (EBin (CmpI CLe) (ELocI n_j3) (EInt 2)) (EBin (OpI IAdd) (ELocI n_j3) (EInt 2))
(SFor n_j4 (EUn NegI (EInt 2)) (EBin (CmpI CLe) (ELocI n_j4) (EInt 2)) (EBin (OpI IAdd) (ELocI n_j4) (EInt 2))
(SLoc rC n_M (ECall n_amp [(AVar n_j1); (AVar n_j2); (AVar n_j3); (AVar n_j4)]);,
SLoc rT n_amp2 ((ELocT n_amp2) +t ((ELocT n_three) *t (EUn Pow2T (EUn AbsC (ELocC n_M))))))))));,
SReturnT ((ELocT n_amp2) /t (EUn D2T (ELit (36 # 1))))).
(** members: SM/include/udZW.h 26-33; initialisers: SM/udZW.cpp 32-33 *)
Definition udZW : cls := mkCls "udZW"
[(n_e, KT);
(n_Qu, KT);
(n_Qd, KT);
(n_gLu, KT);
(n_gRu, KT);
(n_gLd, KT);
(n_gRd, KT);
(n_mu, KT);
(n_md, KT);
(n_MW, KT);
(n_SW, KT);
(n_WW, KT);
(n_MZ, KT);
(n_CW, KT);
(n_preW, KT);
(n_preud, KT);
(n_p1, (KPart 0));
(n_p2, (KPart 1));
(n_p3, (KPart 2));
(n_p4, (KPart 3));
(n_propW, KProp);
(n_propu, KProp);
(n_propd, KProp);
(n_pDenS, KC);
(n_pDenT, KC);
(n_pDenU, KC);
(n_a12a, KSprod);
(n_a13a, KSprod);
(n_a23a, KSprod);
(n_a24a, KSprod);
(n_a34a, KSprod);
(n_s12s, KSprod);
(n_s13s, KSprod);
(n_s14s, KSprod);
(n_s23s, KSprod);
(n_s34s, KSprod);
(n_s132a, KSprod);
(n_s314a, KSprod);
(n_s413a, KSprod)]
[n_echarge; n_massu; n_massd; n_massW; n_sinW; n_widthW]
[(n_e, NT (ELocT n_echarge));
(n_Qu, NT (EUn D2T ((ELit (2 # 1)) /d (ELit (3 # 1)))));
(n_Qd, NT (EUn D2T ((EUn NegD (ELit (1 # 1))) /d (ELit (3 # 1)))));
(n_mu, NT (ELocT n_massu));
(n_md, NT (ELocT n_massd));
(n_MW, NT (ELocT n_massW));
(n_SW, NT (ELocT n_sinW));
(n_WW, NT (ELocT n_widthW))]
udZW_ctor
[udZW_set_masses; udZW_set_momenta; udZW_amp; udZW_amp2].

(** udnl::udnl: SM/udnl.cpp 32-42 *)
Definition udnl_ctor : stmt :=
SSkip.
(** udnl::set_masses: SM/udnl.cpp 43-53 *)
Definition udnl_set_masses : meth := mkMeth n_set_masses [(n_massu, PkT); (n_massd, PkT); (n_masstau, PkT); (n_massW, PkT)]
(SMemT n_mu (ELocT n_massu);,
SMemT n_md (ELocT n_massd);,
SMemT n_ml (ELocT n_masstau);,
SMemT n_MW (ELocT n_massW);,
SSetMass 0 (EMemT n_mu);,
SSetMass 1 (EMemT n_md);,
SSetMass 2 (EUn I2T (EInt 0));,
SSetMass 3 (EMemT n_ml);,
SPropMass n_prop (ELocT n_massW)).
(** udnl::set_momenta: SM/udnl.cpp 54-71 *)
Definition udnl_set_momenta : meth := mkMeth n_set_momenta [(n_mom1, PkMom); (n_mom2, PkMom); (n_mom3, PkMom); (n_mom4, PkMom)]
(SSetMomentum 0 n_mom1;,
SSetMomentum 1 n_mom2;,
SSetMomentum 2 n_mom3;,
SSetMomentum 3 n_mom4;,
SUpdate n_s14s;,
SUpdate n_a23a;,
SUpdate n_s12s;,
SUpdate n_a12a;,
SUpdate n_a34a;,
SDeclT n_propPS 4;,
(SFor n_j (EInt 0) (EBin (CmpI CLt) (ELocI n_j) (EInt 4)) (EBin (OpI IAdd) (ELocI n_j) (EInt 1))
(SArrT n_propPS (AVar n_j) ((EArrT n_mom1 (AVar n_j)) +t (EArrT n_mom2 (AVar n_j)))));,
SMemC n_pDenS (EDen n_prop n_propPS)).
(** udnl::amp: SM/udnl.cpp 76-83 *)
Definition udnl_amp : meth := mkMeth n_amp [(n_ds1, PkI); (n_ds2, PkI); (n_ds4, PkI)]
(SReturnC (((((((EMemT n_e) *t (EMemT n_e)) /t (EUn D2T (ELit (2 # 1)))) /t (EMemT n_SW)) /t (EMemT n_SW)) *tc (((((((EUn D2T (ELit (2 # 1))) *t (EMemT n_MW)) *t (EMemT n_MW)) *tc (EV n_s14s [(AVar n_ds1); (AVar n_ds4)])) *c (EV n_a23a [(AVar n_ds2)])) +c ((((EMemT n_ml) *t (EMemT n_md)) *tc (EV n_a34a [(AVar n_ds4)])) *c (EV n_s12s [(AVar n_ds1); (AVar n_ds2)]))) -c ((((EMemT n_mu) *t (EMemT n_ml)) *tc (EV n_a12a [(AVar n_ds1); (AVar n_ds2)])) *c (EV n_a34a [(AVar n_ds4)])))) /c (((EMemT n_MW) *t (EMemT n_MW)) *tc (EMemC n_pDenS)))).
(** udnl::amp2: SM/udnl.cpp 86-100 *)
Definition udnl_amp2 : meth := mkMeth n_amp2 []
(SLoc rT n_amp2 (EUn I2T (EInt 0));,
SDecl rC n_M;,
(SFor n_j1 (EUn NegI (EInt 1)) (EBin (CmpI CLe) (ELocI n_j1) (EInt 1)) (EBin (OpI IAdd) (ELocI n_j1) (EInt 2))
(SFor n_j2 (EUn NegI (EInt 1)) (EBin (CmpI CLe) (ELocI n_j2) (EInt 1)) (EBin (OpI IAdd) (ELocI n_j2) (EInt 2))
(SFor n_j4 (EUn NegI (EInt 1)) (EBin (CmpI CLe) (ELocI n_j4) (EInt 1)) (EBin (OpI IAdd) (ELocI n_j4) (EInt 2))
(SLoc rC n_M (ECall n_amp [(AVar n_j1); (AVar n_j2); (AVar n_j4)]);,
SLoc rT n_amp2 ((ELocT n_amp2) +t (EUn Pow2T (EUn AbsC (ELocC n_M))))))));,
SReturnT ((ELocT n_amp2) /t (EUn D2T (ELit (12 # 1))))).
(** members: SM/include/udnl.h 26-32; initialisers: SM/udnl.cpp 32-41 *)
Definition udnl : cls := mkCls "udnl"
[(n_e, KT);
(n_mu, KT);
(n_md, KT);
(n_ml, KT);
(n_MW, KT);
(n_WW, KT);
(n_SW, KT);
(n_p1, (KPart 0));
(n_p2, (KPart 1));
(n_p3, (KPart 2));
(n_p4, (KPart 3));
(n_prop, KProp);
(n_pDenS, KC);
(n_s14s, KSprod);
(n_a23a, KSprod);
(n_a34a, KSprod);
(n_s12s, KSprod);
(n_a12a, KSprod)]
[n_echarge; n_massu; n_massd; n_masstau; n_massW; n_widthW; n_sinW]
[(n_e, NT (ELocT n_echarge));
(n_mu, NT (ELocT n_massu));
(n_md, NT (ELocT n_massd));
(n_ml, NT (ELocT n_masstau));
(n_MW, NT (ELocT n_massW));
(n_WW, NT (ELocT n_widthW));
(n_SW, NT (ELocT n_sinW));
(n_prop, NProp (ELocT n_massW) (ELocT n_widthW));
(n_p1, NPart (EMemT n_mu));
(n_p2, NPart (EMemT n_md));
(n_p3, NPart (EUn I2T (EInt 0)));
(n_p4, NPart (EMemT n_ml));
(n_s14s, NSprod false 0 [] 3);
(n_a23a, NSprod true 1 [] 2);
(n_s12s, NSprod false 0 [] 1);
(n_a12a, NSprod true 0 [] 1);
(n_a34a, NSprod true 2 [] 3)]
udnl_ctor
[udnl_set_masses; udnl_set_momenta; udnl_amp; udnl_amp2].

(** udtb::udtb: SM/udtb.cpp 32-43 *)
Definition udtb_ctor : stmt :=
SSkip.
(** udtb::set_masses: SM/udtb.cpp 44-55 *)
Definition udtb_set_masses : meth := mkMeth n_set_masses [(n_massu, PkT); (n_massd, PkT); (n_masst, PkT); (n_massb, PkT); (n_massW, PkT)]
(SMemT n_mu (ELocT n_massu);,
SMemT n_md (ELocT n_massd);,
SMemT n_mt (ELocT n_masst);,
SMemT n_mb (ELocT n_massb);,
SMemT n_MW (ELocT n_massW);,
SSetMass 0 (EMemT n_mu);,
SSetMass 1 (EMemT n_md);,
SSetMass 2 (EMemT n_mt);,
SSetMass 3 (EMemT n_mb);,
SPropMass n_prop (ELocT n_massW)).
(** udtb::set_momenta: SM/udtb.cpp 56-74 *)
Definition udtb_set_momenta : meth := mkMeth n_set_momenta [(n_mom1, PkMom); (n_mom2, PkMom); (n_mom3, PkMom); (n_mom4, PkMom)]
(SSetMomentum 0 n_mom1;,
SSetMomentum 1 n_mom2;,
SSetMomentum 2 n_mom3;,
SSetMomentum 3 n_mom4;,
SUpdate n_a14a;,
SUpdate n_s23s;,
SUpdate n_s12s;,
SUpdate n_a12a;,
SUpdate n_s34s;,
SUpdate n_a34a;,
SDeclT n_propPS 4;,
(SFor n_j (EInt 0) (EBin (CmpI CLt) (ELocI n_j) (EInt 4)) (EBin (OpI IAdd) (ELocI n_j) (EInt 1))
(SArrT n_propPS (AVar n_j) ((EArrT n_mom1 (AVar n_j)) +t (EArrT n_mom2 (AVar n_j)))));,
SMemC n_pDenS (EDen n_prop n_propPS)).
(** udtb::amp: SM/udtb.cpp 79-88 *)
Definition udtb_amp : meth := mkMeth n_amp [(n_ds1, PkI); (n_ds2, PkI); (n_ds3, PkI); (n_ds4, PkI)]
(SReturnC (((((((EMemT n_e) *t (EMemT n_e)) /t (EUn D2T (ELit (2 # 1)))) /t (EMemT n_SW)) /t (EMemT n_SW)) *tc (((((((((EUn D2T (ELit (2 # 1))) *t (EMemT n_MW)) *t (EMemT n_MW)) *tc (EV n_a14a [(AVar n_ds1); (AVar n_ds4)])) *c (EV n_s23s [(AVar n_ds2); (AVar n_ds3)])) -c ((((EMemT n_md) *t (EMemT n_mt)) *tc (EV n_a34a [(AVar n_ds3); (AVar n_ds4)])) *c (EV n_a12a [(AVar n_ds1); (AVar n_ds2)]))) +c ((((EMemT n_mt) *t (EMemT n_mu)) *tc (EV n_s12s [(AVar n_ds1); (AVar n_ds2)])) *c (EV n_a34a [(AVar n_ds3); (AVar n_ds4)]))) +c ((((EMemT n_mb) *t (EMemT n_md)) *tc (EV n_s34s [(AVar n_ds3); (AVar n_ds4)])) *c (EV n_a12a [(AVar n_ds1); (AVar n_ds2)]))) -c ((((EMemT n_mu) *t (EMemT n_mb)) *tc (EV n_s12s [(AVar n_ds1); (AVar n_ds2)])) *c (EV n_s34s [(AVar n_ds3); (AVar n_ds4)])))) /c (((EMemT n_MW) *t (EMemT n_MW)) *tc (EMemC n_pDenS)))).
(** udtb::amp2: SM/udtb.cpp 91-107 *)
Definition udtb_amp2 : meth := mkMeth n_amp2 []
(SLoc rT n_nine (EUn I2T (EInt 9));,
SLoc rT n_amp2 (EUn I2T (EInt 0));,
SDecl rC n_M;,
(SFor n_j1 (EUn NegI (EInt 1)) (EBin (CmpI CLe) (ELocI n_j1) (EInt 1)) (EBin (OpI IAdd) (ELocI n_j1) (EInt 2))
(SFor n_j2 (EUn NegI (EInt 1)) (EBin (CmpI CLe) (ELocI n_j2) (EInt 1)) (EBin (OpI IAdd) (ELocI n_j2) (EInt 2))
(SFor n_j3 (EUn NegI (EInt 1)) (EBin (CmpI CLe) (ELocI n_j3) (EInt 1)) (EBin (OpI IAdd) (ELocI n_j3) (EInt 2))
(SFor n_j4 (EUn NegI (EInt 1)) (EBin (CmpI CLe) (ELocI n_j4) (EInt 1)) (EBin (OpI IAdd) (ELocI n_j4) (EInt 2))
(SLoc rC n_M (ECall n_amp [(AVar n_j1); (AVar n_j2); (AVar n_j3); (AVar n_j4)]);,
SLoc rT n_amp2 ((ELocT n_amp2) +t ((ELocT n_nine) *t (EUn Pow2T (EUn AbsC (ELocC n_M))))))))));,
SReturnT ((ELocT n_amp2) /t (EUn D2T (ELit (36 # 1))))).
(** members: SM/include/udtb.h 26-31; initialisers: SM/udtb.cpp 32-42 *)
Definition udtb : cls := mkCls "udtb"
[(n_e, KT);
(n_mu, KT);
(n_md, KT);
(n_mt, KT);
(n_mb, KT);
(n_MW, KT);
(n_WW, KT);
(n_SW, KT);
(n_p1, (KPart 0));
(n_p2, (KPart 1));
(n_p3, (KPart 2));
(n_p4, (KPart 3));
(n_prop, KProp);
(n_pDenS, KC);
(n_pDenT, KC);
(n_pDenU, KC);
(n_a14a, KSprod);
(n_s23s, KSprod);
(n_s12s, KSprod);
(n_a12a, KSprod);
(n_s34s, KSprod);
(n_a34a, KSprod)]
[n_echarge; n_massu; n_massd; n_masst; n_massb; n_massW; n_widthW; n_sinW]
[(n_e, NT (ELocT n_echarge));
(n_mu, NT (ELocT n_massu));
(n_md, NT (ELocT n_massd));
(n_mt, NT (ELocT n_masst));
(n_mb, NT (ELocT n_massb));
(n_MW, NT (ELocT n_massW));
(n_WW, NT (ELocT n_widthW));
(n_SW, NT (ELocT n_sinW));
(n_prop, NProp (ELocT n_massW) (ELocT n_widthW));
(n_p1, NPart (EMemT n_mu));
(n_p2, NPart (EMemT n_md));
(n_p3, NPart (EMemT n_mt));
(n_p4, NPart (EMemT n_mb));
(n_a14a, NSprod true 0 [] 3);
(n_s23s, NSprod false 1 [] 2);
(n_s12s, NSprod false 0 [] 1);
(n_a12a, NSprod true 0 [] 1);
(n_s34s, NSprod false 2 [] 3);
(n_a34a, NSprod true 2 [] 3)]
udtb_ctor
[udtb_set_masses; udtb_set_momenta; udtb_amp; udtb_amp2].

Definition SM10_classes : list cls := [uAAu; uAuh; uWWu; uZZu; uZuh; ubdt; ucuc; udAW; udWh; udZW; udnl; udtb].
