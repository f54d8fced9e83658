(** Generated by tools/translate.py from SM/dnnd.cpp ... SM/eeZZ.cpp.  Do not edit. *)
From Coq Require Import QArith String.
From Verif Require Import Base Scalar Particle Sproduct Lang SMSyntax SMNames.
Local Open Scope sm_scope.
Local Open Scope string_scope.

(** dnnd::dnnd: SM/dnnd.cpp 32-49 *)
Definition dnnd_ctor : stmt :=
(SMemT n_MZ ((EMemT n_MW) /t (EMemT n_CW));,
SPropMass n_propZ (EMemT n_MZ);,
SMemT n_gLd ((EUn D2T (EUn NegD (ELit (1 # 1)))) +t (((EUn D2T ((ELit (2 # 1)) /d (ELit (3 # 1)))) *t (EMemT n_SW)) *t (EMemT n_SW)));,
SMemT n_gRd (((EUn D2T ((ELit (2 # 1)) /d (ELit (3 # 1)))) *t (EMemT n_SW)) *t (EMemT n_SW));,
SMemT n_gLn (EUn D2T (ELit (1 # 1)));,
SMemT n_gRn (EUn I2T (EInt 0));,
SMemT n_preZ (((EMemT n_e) *t (EMemT n_e)) /t (((((EUn D2T (ELit (4 # 1))) *t (EMemT n_CW)) *t (EMemT n_CW)) *t (EMemT n_SW)) *t (EMemT n_SW)))).
(** dnnd::set_masses: SM/dnnd.cpp 50-57 *)
Definition dnnd_set_masses : meth := mkMeth n_set_masses [(n_massd, PkT); (n_massW, PkT)]
(SMemT n_md (ELocT n_massd);,
SMemT n_MW (ELocT n_massW);,
SMemT n_MZ ((EMemT n_MW) /t (EMemT n_CW));,
SPropMass n_propZ (EMemT n_MZ);,
SSetMass 0 (EMemT n_md);,
SSetMass 3 (EMemT n_md)).
(** dnnd::set_momenta: SM/dnnd.cpp 58-73 *)
Definition dnnd_set_momenta : meth := mkMeth n_set_momenta [(n_mom1, PkMom); (n_mom2, PkMom); (n_mom3, PkMom); (n_mom4, PkMom)]
(SSetMomentum 0 n_mom1;,
SSetMomentum 1 n_mom2;,
SSetMomentum 2 n_mom3;,
SSetMomentum 3 n_mom4;,
SUpdate n_s34s;,
SUpdate n_a12a;,
SUpdate n_s13s;,
SUpdate n_a24a;,
SDeclT n_propP 4;,
(SFor n_j (EInt 0) (EBin (CmpI CLt) (ELocI n_j) (EInt 4)) (EBin (OpI IAdd) (ELocI n_j) (EInt 1))
(SArrT n_propP (AVar n_j) ((EArrT n_mom1 (AVar n_j)) -t (EArrT n_mom4 (AVar n_j)))));,
SMemC n_pDenUZ (EDen n_propZ n_propP)).
(** dnnd::amp: SM/dnnd.cpp 78-102 *)
Definition dnnd_amp : meth := mkMeth n_amp [(n_ds1, PkI); (n_ds4, PkI)]
(SLoc rT n_two (EUn I2T (EInt 2));,
SLoc rC n_amplitude (EBin OpTTC (EUn I2T (EInt 0)) (EUn I2T (EInt 0)));,
SLoc rC n_amplitude ((ELocC n_amplitude) +c (((((ELocT n_two) *t (EMemT n_preZ)) *t (EMemT n_gLn)) *tc ((((EMemT n_gLd) *tc (EV n_s34s [(AVar n_ds4)])) *c (EV n_a12a [(AVar n_ds1)])) -c (((EMemT n_gRd) *tc (EV n_s13s [(AVar n_ds1)])) *c (EV n_a24a [(AVar n_ds4)])))) /c (EMemC n_pDenUZ)));,
SReturnC (ELocC n_amplitude)).
(** dnnd::amp2: SM/dnnd.cpp 105-118 *)
Definition dnnd_amp2 : meth := mkMeth n_amp2 []
(SLoc rT n_amp2 (EUn I2T (EInt 0));,
SLoc rT n_two (EUn I2T (EInt 2));,
SLoc rT n_three (EUn I2T (EInt 3));,
SDecl rC n_M;,
(SFor n_j1 (EUn NegI (EInt 1)) (EBin (CmpI CLe) (ELocI n_j1) (EInt 1)) (EBin (OpI IAdd) (ELocI n_j1) (EInt 2))
(SFor n_j2 (EUn NegI (EInt 1)) (EBin (CmpI CLe) (ELocI n_j2) (EInt 1)) (EBin (OpI IAdd) (ELocI n_j2) (EInt 2))
(SLoc rC n_M (ECall n_amp [(AVar n_j1); (AVar n_j2)]);,
SLoc rT n_amp2 ((ELocT n_amp2) +t ((ELocT n_three) *t (EUn Pow2T (EUn AbsC (ELocC n_M))))))));,
SReturnT ((ELocT n_amp2) /t (EUn D2T (ELit (6 # 1))))).
(** members: SM/include/dnnd.h 26-32; initialisers: SM/dnnd.cpp 32-39 *)
Definition dnnd : cls := mkCls "dnnd"
[(n_e, KT);
(n_md, KT);
(n_MZ, KT);
(n_WZ, KT);
(n_MW, KT);
(n_SW, KT);
(n_CW, KT);
(n_p1, (KPart 0));
(n_p2, (KPart 1));
(n_p3, (KPart 2));
(n_p4, (KPart 3));
(n_propZ, KProp);
(n_pDenUZ, KC);
(n_s34s, KSprod);
(n_a12a, KSprod);
(n_s13s, KSprod);
(n_a24a, KSprod);
(n_preh, KT);
(n_gLd, KT);
(n_gRd, KT);
(n_gLn, KT);
(n_gRn, KT);
(n_preZ, KT);
(n_preZ0, KT)]
[n_echarge; n_massd; n_massW; n_sinW; n_widthZ]
[(n_e, NT (ELocT n_echarge));
(n_md, NT (ELocT n_massd));
(n_MW, NT (ELocT n_massW));
(n_SW, NT (ELocT n_sinW));
(n_CW, NT (EUn SqrtT ((EUn D2T (ELit (1 # 1))) -t ((ELocT n_sinW) *t (ELocT n_sinW)))));
(n_WZ, NT (ELocT n_widthZ));
(n_p1, NPart (EMemT n_md));
(n_p2, NPart (EUn I2T (EInt 0)));
(n_p3, NPart (EUn I2T (EInt 0)));
(n_p4, NPart (EMemT n_md));
(n_s34s, NSprod false 2 [] 3);
(n_a12a, NSprod true 0 [] 1);
(n_s13s, NSprod false 0 [] 2);
(n_a24a, NSprod true 1 [] 3)]
dnnd_ctor
[dnnd_set_masses; dnnd_set_momenta; dnnd_amp; dnnd_amp2].

(** dsds::dsds: SM/dsds.cpp 32-58 *)
Definition dsds_ctor : stmt :=
(SMemT n_MZ ((EMemT n_MW) /t (EMemT n_CW));,
SPropMass n_propZ (EMemT n_MZ);,
SMemT n_preh (((((EMemT n_e) *t (EMemT n_e)) *t (EMemT n_md)) *t (EMemT n_ms)) /t (((((EUn D2T (ELit (4 # 1))) *t (EMemT n_MW)) *t (EMemT n_MW)) *t (EMemT n_SW)) *t (EMemT n_SW)));,
SMemT n_gL ((EUn D2T (EUn NegD (ELit (1 # 1)))) +t (((EUn D2T ((ELit (2 # 1)) /d (ELit (3 # 1)))) *t (EMemT n_SW)) *t (EMemT n_SW)));,
SMemT n_gR (((EUn D2T ((ELit (2 # 1)) /d (ELit (3 # 1)))) *t (EMemT n_SW)) *t (EMemT n_SW));,
SMemT n_preZ (((EMemT n_e) *t (EMemT n_e)) /t (((((EUn D2T (ELit (4 # 1))) *t (EMemT n_CW)) *t (EMemT n_CW)) *t (EMemT n_SW)) *t (EMemT n_SW)));,
SMemT n_preZ0 (((((((EMemT n_preZ) *t ((EMemT n_gL) -t (EMemT n_gR))) *t ((EMemT n_gL) -t (EMemT n_gR))) *t (EMemT n_md)) *t (EMemT n_ms)) /t (EMemT n_MZ)) /t (EMemT n_MZ))).
(** dsds::set_masses: SM/dsds.cpp 59-73 *)
Definition dsds_set_masses : meth := mkMeth n_set_masses [(n_massd, PkT); (n_masss, PkT); (n_massh, PkT); (n_massW, PkT)]
(SMemT n_md (ELocT n_massd);,
SMemT n_ms (ELocT n_masss);,
SMemT n_mh (ELocT n_massh);,
SPropMass n_proph (EMemT n_mh);,
SMemT n_MW (ELocT n_massW);,
SMemT n_MZ ((EMemT n_MW) /t (EMemT n_CW));,
SPropMass n_propZ (EMemT n_MZ);,
SSetMass 0 (EMemT n_md);,
SSetMass 1 (EMemT n_ms);,
SSetMass 2 (EMemT n_md);,
SSetMass 3 (EMemT n_ms);,
SMemT n_preh (((((EMemT n_e) *t (EMemT n_e)) *t (EMemT n_md)) *t (EMemT n_ms)) /t (((((EUn I2T (EInt 4)) *t (EMemT n_MW)) *t (EMemT n_MW)) *t (EMemT n_SW)) *t (EMemT n_SW)));,
SMemT n_preZ0 (((((((EMemT n_preZ) *t ((EMemT n_gL) -t (EMemT n_gR))) *t ((EMemT n_gL) -t (EMemT n_gR))) *t (EMemT n_md)) *t (EMemT n_ms)) /t (EMemT n_MZ)) /t (EMemT n_MZ))).
(** dsds::set_momenta: SM/dsds.cpp 74-99 *)
Definition dsds_set_momenta : meth := mkMeth n_set_momenta [(n_mom1, PkMom); (n_mom2, PkMom); (n_mom3, PkMom); (n_mom4, PkMom)]
(SSetMomentum 0 n_mom1;,
SSetMomentum 1 n_mom2;,
SSetMomentum 2 n_mom3;,
SSetMomentum 3 n_mom4;,
SUpdate n_a13a;,
SUpdate n_s13s;,
SUpdate n_a14a;,
SUpdate n_s14s;,
SUpdate n_a23a;,
SUpdate n_s23s;,
SUpdate n_a24a;,
SUpdate n_s24s;,
SUpdate n_s12s;,
SUpdate n_a12a;,
SUpdate n_s34s;,
SUpdate n_a34a;,
SDeclT n_propP 4;,
(SFor n_j (EInt 0) (EBin (CmpI CLt) (ELocI n_j) (EInt 4)) (EBin (OpI IAdd) (ELocI n_j) (EInt 1))
(SArrT n_propP (AVar n_j) ((EArrT n_mom1 (AVar n_j)) -t (EArrT n_mom3 (AVar n_j)))));,
SMemC n_pDenTAG (EDen n_propAG n_propP);,
SMemC n_pDenTh (EDen n_proph n_propP);,
SMemC n_pDenTZ (EDen n_propZ n_propP)).
(** dsds::amp_gluon: SM/dsds.cpp 107-125 *)
Definition dsds_amp_gluon : meth := mkMeth n_amp_gluon [(n_ds1, PkI); (n_ds2, PkI); (n_ds3, PkI); (n_ds4, PkI)]
(SLoc rT n_two (EUn I2T (EInt 2));,
SLoc rC n_amplitude (EBin OpTTC (EUn I2T (EInt 0)) (EUn I2T (EInt 0)));,
SLoc rC n_amplitude (((((EUn NegT (ELocT n_two)) *t (EMemT n_gs)) *t (EMemT n_gs)) *tc (((((EV n_a14a [(AVar n_ds1); (AVar n_ds4)]) *c (EV n_s23s [(AVar n_ds2); (AVar n_ds3)])) +c ((EV n_a12a [(AVar n_ds1); (AVar n_ds2)]) *c (EV n_s34s [(AVar n_ds3); (AVar n_ds4)]))) +c ((EV n_s14s [(AVar n_ds1); (AVar n_ds4)]) *c (EV n_a23a [(AVar n_ds2); (AVar n_ds3)]))) +c ((EV n_s12s [(AVar n_ds1); (AVar n_ds2)]) *c (EV n_a34a [(AVar n_ds3); (AVar n_ds4)])))) /c (EMemC n_pDenTAG));,
SReturnC (ELocC n_amplitude)).
(** dsds::amp_rest: SM/dsds.cpp 126-177 *)
Definition dsds_amp_rest : meth := mkMeth n_amp_rest [(n_ds1, PkI); (n_ds2, PkI); (n_ds3, PkI); (n_ds4, PkI)]
(SLoc rT n_two (EUn I2T (EInt 2));,
SLoc rC n_amplitude (EBin OpTTC (EUn I2T (EInt 0)) (EUn I2T (EInt 0)));,
SLoc rC n_amplitude (((((((EUn NegT (ELocT n_two)) *t (EMemT n_e)) *t (EMemT n_e)) *t (EUn D2T (ELit (1 # 1)))) /t (EUn D2T (ELit (9 # 1)))) *tc (((((EV n_a14a [(AVar n_ds1); (AVar n_ds4)]) *c (EV n_s23s [(AVar n_ds2); (AVar n_ds3)])) +c ((EV n_a12a [(AVar n_ds1); (AVar n_ds2)]) *c (EV n_s34s [(AVar n_ds3); (AVar n_ds4)]))) +c ((EV n_s14s [(AVar n_ds1); (AVar n_ds4)]) *c (EV n_a23a [(AVar n_ds2); (AVar n_ds3)]))) +c ((EV n_s12s [(AVar n_ds1); (AVar n_ds2)]) *c (EV n_a34a [(AVar n_ds3); (AVar n_ds4)])))) /c (EMemC n_pDenTAG));,
SLoc rC n_amplitude ((ELocC n_amplitude) +c ((((EUn NegT (EMemT n_preh)) *tc ((EV n_s13s [(AVar n_ds1); (AVar n_ds3)]) -c (EV n_a13a [(AVar n_ds1); (AVar n_ds3)]))) *c ((EV n_s24s [(AVar n_ds2); (AVar n_ds4)]) -c (EV n_a24a [(AVar n_ds2); (AVar n_ds4)]))) /c (EMemC n_pDenTh)));,
SLoc rC n_amplitude ((ELocC n_amplitude) +c (((((EMemT n_preZ0) *tc ((EV n_a13a [(AVar n_ds1); (AVar n_ds3)]) +c (EV n_s13s [(AVar n_ds1); (AVar n_ds3)]))) *c ((EV n_a24a [(AVar n_ds2); (AVar n_ds4)]) +c (EV n_s24s [(AVar n_ds2); (AVar n_ds4)]))) /c (EMemC n_pDenTZ)) -c ((((ELocT n_two) *t (EMemT n_preZ)) *tc ((((((EMemT n_gL) *t (EMemT n_gL)) *tc (EV n_s34s [(AVar n_ds3); (AVar n_ds4)])) *c (EV n_a12a [(AVar n_ds1); (AVar n_ds2)])) +c (((EMemT n_gL) *t (EMemT n_gR)) *tc (((EV n_s14s [(AVar n_ds1); (AVar n_ds4)]) *c (EV n_a23a [(AVar n_ds2); (AVar n_ds3)])) +c ((EV n_s23s [(AVar n_ds2); (AVar n_ds3)]) *c (EV n_a14a [(AVar n_ds1); (AVar n_ds4)]))))) +c ((((EMemT n_gR) *t (EMemT n_gR)) *tc (EV n_s12s [(AVar n_ds1); (AVar n_ds2)])) *c (EV n_a34a [(AVar n_ds3); (AVar n_ds4)])))) /c (EMemC n_pDenTZ))));,
SReturnC (ELocC n_amplitude)).
(** dsds::amp2: SM/dsds.cpp 180-198 *)
Definition dsds_amp2 : meth := mkMeth n_amp2 []
(SLoc rT n_amp2 (EUn I2T (EInt 0));,
SLoc rT n_two (EUn I2T (EInt 2));,
SLoc rT n_three (EUn I2T (EInt 3));,
SLoc rT n_nine (EUn I2T (EInt 9));,
SDecl rC n_M_rest;,
SDecl rC n_M_gluon;,
(SFor n_j1 (EUn NegI (EInt 1)) (EBin (CmpI CLe) (ELocI n_j1) (EInt 1)) (EBin (OpI IAdd) (ELocI n_j1) (EInt 2))
(SFor n_j2 (EUn NegI (EInt 1)) (EBin (CmpI CLe) (ELocI n_j2) (EInt 1)) (EBin (OpI IAdd) (ELocI n_j2) (EInt 2))
(SFor n_j3 (EUn NegI (EInt 1)) (EBin (CmpI CLe) (ELocI n_j3) (EInt 1)) (EBin (OpI IAdd) (ELocI n_j3) (EInt 2))
(SFor n_j4 (EUn NegI (EInt 1)) (EBin (CmpI CLe) (ELocI n_j4) (EInt 1)) (EBin (OpI IAdd) (ELocI n_j4) (EInt 2))
(SLoc rC n_M_rest (ECall n_amp_rest [(AVar n_j1); (AVar n_j2); (AVar n_j3); (AVar n_j4)]);,
SLoc rC n_M_gluon (ECall n_amp_gluon [(AVar n_j1); (AVar n_j2); (AVar n_j3); (AVar n_j4)]);,
SLoc rT n_amp2 ((ELocT n_amp2) +t ((ELocT n_nine) *t (EUn Pow2T (EUn AbsC (ELocC n_M_rest)))));,
SLoc rT n_amp2 ((ELocT n_amp2) +t ((ELocT n_two) *t (EUn Pow2T (EUn AbsC (ELocC n_M_gluon))))))))));,
SReturnT ((ELocT n_amp2) /t (EUn D2T (ELit (36 # 1))))).
(** members: SM/include/dsds.h 26-33; initialisers: SM/dsds.cpp 32-48 *)
Definition dsds : cls := mkCls "dsds"
[(n_e, KT);
(n_gs, KT);
(n_md, KT);
(n_ms, KT);
(n_mh, KT);
(n_wh, KT);
(n_MZ, KT);
(n_WZ, KT);
(n_MW, KT);
(n_SW, KT);
(n_CW, KT);
(n_p1, (KPart 0));
(n_p2, (KPart 1));
(n_p3, (KPart 2));
(n_p4, (KPart 3));
(n_propAG, KProp);
(n_proph, KProp);
(n_propZ, KProp);
(n_pDenTAG, KC);
(n_pDenTh, KC);
(n_pDenTZ, KC);
(n_a13a, KSprod);
(n_s13s, KSprod);
(n_a14a, KSprod);
(n_s14s, KSprod);
(n_a23a, KSprod);
(n_s23s, KSprod);
(n_a24a, KSprod);
(n_s24s, KSprod);
(n_s12s, KSprod);
(n_a12a, KSprod);
(n_s34s, KSprod);
(n_a34a, KSprod);
(n_preh, KT);
(n_gL, KT);
(n_gR, KT);
(n_preZ, KT);
(n_preZ0, KT)]
[n_echarge; n_gscharge; n_massd; n_masss; n_massh; n_widthh; n_massW; n_sinW; n_widthZ]
[(n_e, NT (ELocT n_echarge));
(n_gs, NT (ELocT n_gscharge));
(n_md, NT (ELocT n_massd));
(n_ms, NT (ELocT n_masss));
(n_mh, NT (ELocT n_massh));
(n_wh, NT (ELocT n_widthh));
(n_MW, NT (ELocT n_massW));
(n_SW, NT (ELocT n_sinW));
(n_CW, NT (EUn SqrtT ((EUn D2T (ELit (1 # 1))) -t ((ELocT n_sinW) *t (ELocT n_sinW)))));
(n_WZ, NT (ELocT n_widthZ));
(n_propAG, NProp (EUn I2T (EInt 0)) (EUn I2T (EInt 0)));
(n_proph, NProp (EMemT n_mh) (EMemT n_wh));
(n_p1, NPart (EMemT n_md));
(n_p2, NPart (EMemT n_ms));
(n_p3, NPart (EMemT n_md));
(n_p4, NPart (EMemT n_ms));
(n_a13a, NSprod true 0 [] 2);
(n_s13s, NSprod false 0 [] 2);
(n_a14a, NSprod true 0 [] 3);
(n_s14s, NSprod false 0 [] 3);
(n_a23a, NSprod true 1 [] 2);
(n_s23s, NSprod false 1 [] 2);
(n_a24a, NSprod true 1 [] 3);
(n_s24s, NSprod false 1 [] 3);
(n_s12s, NSprod false 0 [] 1);
(n_a12a, NSprod true 0 [] 1);
(n_s34s, NSprod false 2 [] 3);
(n_a34a, NSprod true 2 [] 3)]
dsds_ctor
[dsds_set_masses; dsds_set_momenta; dsds_amp_gluon; dsds_amp_rest; dsds_amp2].

(** eAAe::eAAe: SM/eAAe.cpp 32-54 *)
Definition eAAe_ctor : stmt :=
(SLoc rT n_two (EUn I2T (EInt 2));,
SMemT n_sqrt2 (EUn SqrtT (ELocT n_two));,
SParticle 0 (EMemT n_me);,
SParticle 1 (EUn I2T (EInt 0));,
SParticle 2 (EUn I2T (EInt 0));,
SParticle 3 (EMemT n_me);,
SSprod n_s34s false 2 [] 3;,
SSprod n_a34a true 2 [] 3;,
SSprod n_s12s false 0 [] 1;,
SSprod n_a12a true 0 [] 1;,
SSprod n_s13s false 0 [] 2;,
SSprod n_a13a true 0 [] 2;,
SSprod n_s24s false 1 [] 3;,
SSprod n_a24a true 1 [] 3;,
SSprod n_s23s false 1 [] 2;,
SSprod n_a23a true 1 [] 2;,
SSprod n_s14s false 0 [] 3;,
SSprod n_a14a true 0 [] 3;,
SSprod n_s342a false 2 [3] 1;,
SSprod n_s243a false 1 [3] 2).
(** eAAe::set_masses: SM/eAAe.cpp 55-60 *)
Definition eAAe_set_masses : meth := mkMeth n_set_masses [(n_masse, PkT)]
(SMemT n_me (ELocT n_masse);,
SSetMass 0 (EMemT n_me);,
SSetMass 3 (EMemT n_me);,
SPropMass n_prop (EMemT n_me)).
(** eAAe::set_momenta: SM/eAAe.cpp 61-90 *)
Definition eAAe_set_momenta : meth := mkMeth n_set_momenta [(n_mom1, PkMom); (n_mom2, PkMom); (n_mom3, PkMom); (n_mom4, PkMom)]
(SSetMomentum 0 n_mom1;,
SSetMomentum 1 n_mom2;,
SSetMomentum 2 n_mom3;,
SSetMomentum 3 n_mom4;,
SUpdate n_s34s;,
SUpdate n_a34a;,
SUpdate n_s12s;,
SUpdate n_a12a;,
SUpdate n_s13s;,
SUpdate n_a13a;,
SUpdate n_s24s;,
SUpdate n_a24a;,
SUpdate n_s23s;,
SUpdate n_a23a;,
SUpdate n_s14s;,
SUpdate n_a14a;,
SUpdate n_s342a;,
SUpdate n_s243a;,
SDeclT n_propSP 4;,
SDeclT n_propTP 4;,
(SFor n_j (EInt 0) (EBin (CmpI CLt) (ELocI n_j) (EInt 4)) (EBin (OpI IAdd) (ELocI n_j) (EInt 1))
(SArrT n_propSP (AVar n_j) ((EArrT n_mom1 (AVar n_j)) +t (EArrT n_mom2 (AVar n_j)));,
SArrT n_propTP (AVar n_j) ((EArrT n_mom1 (AVar n_j)) -t (EArrT n_mom3 (AVar n_j)))));,
SMemC n_pDenS (EDen n_prop n_propSP);,
SMemC n_pDenT (EDen n_prop n_propTP)).
(** eAAe::amp: SM/eAAe.cpp 97-135 *)
Definition eAAe_amp : meth := mkMeth n_amp [(n_ds1, PkI); (n_ds2, PkI); (n_ds3, PkI); (n_ds4, PkI)]
((SIf (EAnd (EBin (CmpI CGt) (ELocI n_ds3) (EInt 0)) (EBin (CmpI CGt) (ELocI n_ds2) (EInt 0)))
(SReturnC (((((((((EUn D2T (ELit (2 # 1))) *t (EMemT n_e)) *t (EMemT n_e)) *t (EMemT n_me)) *tc (EV n_s23s [])) *c (EV n_s23s [])) *c (EV n_a14a [(AVar n_ds1); (AVar n_ds4)])) /c (EMemC n_pDenS)) /c (EMemC n_pDenT)))
((SIf (EAnd (EBin (CmpI CLt) (ELocI n_ds3) (EInt 0)) (EBin (CmpI CLt) (ELocI n_ds2) (EInt 0)))
(SReturnC (((((((((EUn D2T (EUn NegD (ELit (2 # 1)))) *t (EMemT n_e)) *t (EMemT n_e)) *t (EMemT n_me)) *tc (EV n_a23a [])) *c (EV n_a23a [])) *c (EV n_s14s [(AVar n_ds1); (AVar n_ds4)])) /c (EMemC n_pDenS)) /c (EMemC n_pDenT)))
((SIf (EAnd (EBin (CmpI CGt) (ELocI n_ds3) (EInt 0)) (EBin (CmpI CLt) (ELocI n_ds2) (EInt 0)))
(SReturnC (((((((EUn D2T (ELit (2 # 1))) *t (EMemT n_e)) *t (EMemT n_e)) *tc (((EV n_s34s [(AVar n_ds4)]) *c (EV n_a12a [(AVar n_ds1)])) -c ((EV n_s13s [(AVar n_ds1)]) *c (EV n_a24a [(AVar n_ds4)])))) *c (EV n_s342a [])) /c (EMemC n_pDenS)) /c (EMemC n_pDenT)))
((SIf (EAnd (EBin (CmpI CLt) (ELocI n_ds3) (EInt 0)) (EBin (CmpI CGt) (ELocI n_ds2) (EInt 0)))
(SReturnC (((((((EUn D2T (EUn NegD (ELit (2 # 1)))) *t (EMemT n_e)) *t (EMemT n_e)) *tc (((EV n_a34a [(AVar n_ds4)]) *c (EV n_s12s [(AVar n_ds1)])) -c ((EV n_a13a [(AVar n_ds1)]) *c (EV n_s24s [(AVar n_ds4)])))) *c (EV n_s243a [])) /c (EMemC n_pDenS)) /c (EMemC n_pDenT)))
(SSkip))))))));,
SReturnC (EBin OpTTC (EUn I2T (EInt 0)) (EUn I2T (EInt 0)))).
(** eAAe::amp2: SM/eAAe.cpp 139-153 *)
Definition eAAe_amp2 : meth := mkMeth n_amp2 []
(SLoc rT n_amp2 (EUn I2T (EInt 0));,
SDecl rC n_M;,
(SFor n_j1 (EUn NegI (EInt 1)) (EBin (CmpI CLe) (ELocI n_j1) (EInt 1)) (EBin (OpI IAdd) (ELocI n_j1) (EInt 2))
(SFor n_j2 (EUn NegI (EInt 2)) (EBin (CmpI CLe) (ELocI n_j2) (EInt 2)) (EBin (OpI IAdd) (ELocI n_j2) (EInt 4))
(SFor n_j3 (EUn NegI (EInt 2)) (EBin (CmpI CLe) (ELocI n_j3) (EInt 2)) (EBin (OpI IAdd) (ELocI n_j3) (EInt 4))
(SFor n_j4 (EUn NegI (EInt 1)) (EBin (CmpI CLe) (ELocI n_j4) (EInt 1)) (EBin (OpI IAdd) (ELocI n_j4) (EInt 2))
(SLoc rC n_M (ECall n_amp [(AVar n_j1); (AVar n_j2); (AVar n_j3); (AVar n_j4)]);,
SLoc rT n_amp2 ((ELocT n_amp2) +t (EUn Pow2T (EUn AbsC (ELocC n_M)))))))));,
SReturnT ((ELocT n_amp2) /t (EUn D2T (ELit (4 # 1))))).
(** eAAe::amp2_Aplus: SM/eAAe.cpp 156-169 *)
Definition eAAe_amp2_Aplus : meth := mkMeth n_amp2_Aplus []
(SLoc rT n_amp2 (EUn I2T (EInt 0));,
SDecl rC n_M;,
(SFor n_j1 (EUn NegI (EInt 1)) (EBin (CmpI CLe) (ELocI n_j1) (EInt 1)) (EBin (OpI IAdd) (ELocI n_j1) (EInt 2))
(SFor n_j3 (EUn NegI (EInt 2)) (EBin (CmpI CLe) (ELocI n_j3) (EInt 2)) (EBin (OpI IAdd) (ELocI n_j3) (EInt 4))
(SFor n_j4 (EUn NegI (EInt 1)) (EBin (CmpI CLe) (ELocI n_j4) (EInt 1)) (EBin (OpI IAdd) (ELocI n_j4) (EInt 2))
(SLoc rC n_M (ECall n_amp [(AVar n_j1); (ALit 2); (AVar n_j3); (AVar n_j4)]);,
SLoc rT n_amp2 ((ELocT n_amp2) +t (EUn Pow2T (EUn AbsC (ELocC n_M))))))));,
SReturnT ((ELocT n_amp2) /t (EUn D2T (ELit (2 # 1))))).
(** members: SM/include/eAAe.h 26-32; initialisers: SM/eAAe.cpp 32-33 *)
Definition eAAe : cls := mkCls "eAAe"
[(n_e, KT);
(n_me, KT);
(n_p1, (KPart 0));
(n_p2, (KPart 1));
(n_p3, (KPart 2));
(n_p4, (KPart 3));
(n_prop, KProp);
(n_pDenS, KC);
(n_pDenT, KC);
(n_s34s, KSprod);
(n_a34a, KSprod);
(n_s12s, KSprod);
(n_a12a, KSprod);
(n_s13s, KSprod);
(n_a13a, KSprod);
(n_s24s, KSprod);
(n_a24a, KSprod);
(n_s23s, KSprod);
(n_a23a, KSprod);
(n_s14s, KSprod);
(n_a14a, KSprod);
(n_s342a, KSprod);
(n_s243a, KSprod);
(n_sqrt2, KT)]
[n_echarge; n_masse]
[(n_e, NT (ELocT n_echarge));
(n_me, NT (ELocT n_masse));
(n_prop, NProp (ELocT n_masse) (EUn I2T (EInt 0)))]
eAAe_ctor
[eAAe_set_masses; eAAe_set_momenta; eAAe_amp; eAAe_amp2; eAAe_amp2_Aplus].

(** eAeh::eAeh: SM/eAeh.cpp 32-52 *)
Definition eAeh_ctor : stmt :=
(SLoc rT n_two (EUn I2T (EInt 2));,
SMemT n_sqrt2 (EUn SqrtT (ELocT n_two));,
SParticle 0 (EMemT n_me);,
SParticle 1 (EUn I2T (EInt 0));,
SParticle 2 (EMemT n_me);,
SParticle 3 (EMemT n_mh);,
SSprod n_s12s false 0 [] 1;,
SSprod n_a12a true 0 [] 1;,
SSprod n_s23s false 1 [] 2;,
SSprod n_a23a true 1 [] 2;,
SSprod n_s13s false 0 [] 2;,
SSprod n_a13a true 0 [] 2;,
SSprod n_s243a false 1 [3] 2;,
SSprod n_a243s true 1 [3] 2;,
SSprod n_s241a false 1 [3] 0;,
SSprod n_a241s true 1 [3] 0;,
SSprod n_s2342s false 1 [2; 3] 1;,
SSprod n_a2342a true 1 [2; 3] 1).
(** eAeh::set_masses: SM/eAeh.cpp 53-60 *)
Definition eAeh_set_masses : meth := mkMeth n_set_masses [(n_masse, PkT); (n_massh, PkT)]
(SMemT n_me (ELocT n_masse);,
SMemT n_mh (ELocT n_massh);,
SSetMass 0 (EMemT n_me);,
SSetMass 2 (EMemT n_me);,
SSetMass 3 (EMemT n_mh);,
SPropMass n_prop (EMemT n_me)).
(** eAeh::set_v: SM/eAeh.cpp 61-63 *)
Definition eAeh_set_v : meth := mkMeth n_set_v [(n_vev, PkT)]
(SMemT n_v (ELocT n_vev)).
(** eAeh::set_momenta: SM/eAeh.cpp 64-90 *)
Definition eAeh_set_momenta : meth := mkMeth n_set_momenta [(n_mom1, PkMom); (n_mom2, PkMom); (n_mom3, PkMom); (n_mom4, PkMom)]
(SSetMomentum 0 n_mom1;,
SSetMomentum 1 n_mom2;,
SSetMomentum 2 n_mom3;,
SSetMomentum 3 n_mom4;,
SUpdate n_s12s;,
SUpdate n_a12a;,
SUpdate n_s23s;,
SUpdate n_a23a;,
SUpdate n_s13s;,
SUpdate n_a13a;,
SUpdate n_s243a;,
SUpdate n_a243s;,
SUpdate n_s241a;,
SUpdate n_a241s;,
SUpdate n_s2342s;,
SUpdate n_a2342a;,
SDeclT n_propSP 4;,
SDeclT n_propUP 4;,
(SFor n_j (EInt 0) (EBin (CmpI CLt) (ELocI n_j) (EInt 4)) (EBin (OpI IAdd) (ELocI n_j) (EInt 1))
(SArrT n_propSP (AVar n_j) ((EArrT n_mom1 (AVar n_j)) +t (EArrT n_mom2 (AVar n_j)));,
SArrT n_propUP (AVar n_j) ((EArrT n_mom1 (AVar n_j)) -t (EArrT n_mom4 (AVar n_j)))));,
SMemC n_pDenS (EDen n_prop n_propSP);,
SMemC n_pDenU (EDen n_prop n_propUP)).
(** eAeh::amp: SM/eAeh.cpp 95-108 *)
Definition eAeh_amp : meth := mkMeth n_amp [(n_ds1, PkI); (n_ds2, PkI); (n_ds3, PkI)]
((SIf (EBin (CmpI CGt) (ELocI n_ds2) (EInt 0))
(SReturnC (((((((EMemT n_sqrt2) *t (EMemT n_e)) *t (EMemT n_me)) /t (EMemT n_v)) *tc (((((((EMemT n_mh) *t (EMemT n_mh)) *tc (EV n_s12s [(AVar n_ds1)])) *c (EV n_s23s [(AVar n_ds3)])) -c (((EMemT n_me) *tc (EV n_s12s [(AVar n_ds1)])) *c (EV n_s243a [(AVar n_ds3)]))) -c (((EMemT n_me) *tc (EV n_s23s [(AVar n_ds3)])) *c (EV n_s241a [(AVar n_ds1)]))) +c ((EV n_a13a [(AVar n_ds1); (AVar n_ds3)]) *c (EV n_s2342s [])))) /c (EMemC n_pDenS)) /c (EMemC n_pDenU)))
((SIf (EBin (CmpI CLt) (ELocI n_ds2) (EInt 0))
(SReturnC (((((((EMemT n_sqrt2) *t (EMemT n_e)) *t (EMemT n_me)) /t (EMemT n_v)) *tc (((((((EUn NegT (EMemT n_mh)) *t (EMemT n_mh)) *tc (EV n_a12a [(AVar n_ds1)])) *c (EV n_a23a [(AVar n_ds3)])) +c (((EMemT n_me) *tc (EV n_a12a [(AVar n_ds1)])) *c (EV n_a243s [(AVar n_ds3)]))) +c (((EMemT n_me) *tc (EV n_a23a [(AVar n_ds3)])) *c (EV n_a241s [(AVar n_ds1)]))) -c ((EV n_s13s [(AVar n_ds1); (AVar n_ds3)]) *c (EV n_a2342a [])))) /c (EMemC n_pDenS)) /c (EMemC n_pDenU)))
(SSkip))));,
SReturnC (EBin OpTTC (EUn I2T (EInt 0)) (EUn I2T (EInt 0)))).
(** eAeh::amp2: SM/eAeh.cpp 111-124 *)
Definition eAeh_amp2 : meth := mkMeth n_amp2 []
(SLoc rT n_amp2 (EUn I2T (EInt 0));,
SDecl rC n_M;,
(SFor n_j1 (EUn NegI (EInt 1)) (EBin (CmpI CLe) (ELocI n_j1) (EInt 1)) (EBin (OpI IAdd) (ELocI n_j1) (EInt 2))
(SFor n_j2 (EUn NegI (EInt 2)) (EBin (CmpI CLe) (ELocI n_j2) (EInt 2)) (EBin (OpI IAdd) (ELocI n_j2) (EInt 4))
(SFor n_j3 (EUn NegI (EInt 1)) (EBin (CmpI CLe) (ELocI n_j3) (EInt 1)) (EBin (OpI IAdd) (ELocI n_j3) (EInt 2))
(SLoc rC n_M (ECall n_amp [(AVar n_j1); (AVar n_j2); (AVar n_j3)]);,
SLoc rT n_amp2 ((ELocT n_amp2) +t (EUn Pow2T (EUn AbsC (ELocC n_M))))))));,
SReturnT ((ELocT n_amp2) /t (EUn D2T (ELit (4 # 1))))).
(** eAeh::amp2_Aplus: SM/eAeh.cpp 128-140 *)
Definition eAeh_amp2_Aplus : meth := mkMeth n_amp2_Aplus []
(SLoc rT n_amp2 (EUn I2T (EInt 0));,
SDecl rC n_M;,
(SFor n_j1 (EUn NegI (EInt 1)) (EBin (CmpI CLe) (ELocI n_j1) (EInt 1)) (EBin (OpI IAdd) (ELocI n_j1) (EInt 2))
(SFor n_j3 (EUn NegI (EInt 1)) (EBin (CmpI CLe) (ELocI n_j3) (EInt 1)) (EBin (OpI IAdd) (ELocI n_j3) (EInt 2))
(SLoc rC n_M (ECall n_amp [(AVar n_j1); (ALit 2); (AVar n_j3)]);,
SLoc rT n_amp2 ((ELocT n_amp2) +t (EUn Pow2T (EUn AbsC (ELocC n_M)))))));,
SReturnT ((ELocT n_amp2) /t (EUn D2T (ELit (2 # 1))))).
(** eAeh::amp2_momenta: SM/eAeh.cpp 144-195 *)
Definition eAeh_amp2_momenta : meth := mkMeth n_amp2_momenta [(n_mom1, PkMom); (n_mom2, PkMom); (n_mom3, PkMom); (n_mom4, PkMom)]
(SSetMomentum 0 n_mom1;,
SSetMomentum 1 n_mom2;,
SSetMomentum 2 n_mom3;,
SSetMomentum 3 n_mom4;,
SDeclT n_propSP 4;,
SDeclT n_propUP 4;,
(SFor n_j (EInt 0) (EBin (CmpI CLt) (ELocI n_j) (EInt 4)) (EBin (OpI IAdd) (ELocI n_j) (EInt 1))
(SArrT n_propSP (AVar n_j) ((EArrT n_mom1 (AVar n_j)) +t (EArrT n_mom2 (AVar n_j)));,
SArrT n_propUP (AVar n_j) ((EArrT n_mom1 (AVar n_j)) -t (EArrT n_mom4 (AVar n_j)))));,
SLoc rT n_propDS (EUn ReC (EDen n_prop n_propSP));,
SLoc rT n_propDU (EUn ReC (EDen n_prop n_propUP));,
SLoc rT n_amp2 (EUn I2T (EInt 0));,
SDeclC n_s12 [2];,
SDeclC n_a12 [2];,
SDeclC n_s23 [2];,
SDeclC n_a23 [2];,
SDeclC n_s243 [2];,
SDeclC n_a243 [2];,
SDeclC n_s241 [2];,
SDeclC n_a241 [2];,
SDeclC n_a13 [2; 2];,
SDeclC n_s13 [2; 2];,
SDecl rC n_s2342;,
SDecl rC n_a2342;,
SDecl rC n_numP;,
SDecl rC n_numM;,
(SFor n_i (EInt 0) (EBin (CmpI CLt) (ELocI n_i) (EInt 2)) (EBin (OpI IAdd) (ELocI n_i) (EInt 1))
((SFor n_j (EInt 0) (EBin (CmpI CLt) (ELocI n_j) (EInt 2)) (EBin (OpI IAdd) (ELocI n_j) (EInt 1))
(SArrC n_a13 [(AVar n_i); (AVar n_j)] (EBin OpVV (ESpinor1 0 LAngle (EBin (OpI ISub) (EBin (OpI IMul) (EInt 2) (ELocI n_i)) (EInt 1))) (ESpinor1 2 RAngle (EBin (OpI ISub) (EBin (OpI IMul) (EInt 2) (ELocI n_j)) (EInt 1))));,
SArrC n_s13 [(AVar n_i); (AVar n_j)] (EBin OpVV (ESpinor1 0 LSquare (EBin (OpI ISub) (EBin (OpI IMul) (EInt 2) (ELocI n_i)) (EInt 1))) (ESpinor1 2 RSquare (EBin (OpI ISub) (EBin (OpI IMul) (EInt 2) (ELocI n_j)) (EInt 1))))));,
SArrC n_s12 [(AVar n_i)] (EBin OpVV (ESpinor1 0 LSquare (EBin (OpI ISub) (EBin (OpI IMul) (EInt 2) (ELocI n_i)) (EInt 1))) (ESpinor0 1 RSquare));,
SArrC n_a12 [(AVar n_i)] (EBin OpVV (ESpinor1 0 LAngle (EBin (OpI ISub) (EBin (OpI IMul) (EInt 2) (ELocI n_i)) (EInt 1))) (ESpinor0 1 RAngle));,
SArrC n_s23 [(AVar n_i)] (EBin OpVV (ESpinor0 1 LSquare) (ESpinor1 2 RSquare (EBin (OpI ISub) (EBin (OpI IMul) (EInt 2) (ELocI n_i)) (EInt 1))));,
SArrC n_a23 [(AVar n_i)] (EBin OpVV (ESpinor0 1 LAngle) (ESpinor1 2 RAngle (EBin (OpI ISub) (EBin (OpI IMul) (EInt 2) (ELocI n_i)) (EInt 1))));,
SArrC n_s243 [(AVar n_i)] (EBin OpVV (EBin OpVM (ESpinor0 1 LSquare) (EMat 3 true)) (ESpinor1 2 RAngle (EBin (OpI ISub) (EBin (OpI IMul) (EInt 2) (ELocI n_i)) (EInt 1))));,
SArrC n_a243 [(AVar n_i)] (EBin OpVV (EBin OpVM (ESpinor0 1 LAngle) (EMat 3 false)) (ESpinor1 2 RSquare (EBin (OpI ISub) (EBin (OpI IMul) (EInt 2) (ELocI n_i)) (EInt 1))))));,
SLoc rC n_s2342 (EBin OpVV (EBin OpVM (EBin OpVM (ESpinor0 1 LSquare) (EMat 2 true)) (EMat 3 false)) (ESpinor0 1 RSquare));,
SLoc rC n_a2342 (EBin OpVV (EBin OpVM (EBin OpVM (ESpinor0 1 LAngle) (EMat 2 false)) (EMat 3 true)) (ESpinor0 1 RAngle));,
(SFor n_j1 (EInt 0) (EBin (CmpI CLt) (ELocI n_j1) (EInt 2)) (EBin (OpI IAdd) (ELocI n_j1) (EInt 1))
(SFor n_j3 (EInt 0) (EBin (CmpI CLt) (ELocI n_j3) (EInt 2)) (EBin (OpI IAdd) (ELocI n_j3) (EInt 1))
(SLoc rC n_numP (((((((EMemT n_mh) *t (EMemT n_mh)) *tc (EArrC n_s12 [(AVar n_j1)])) *c (EArrC n_s23 [(AVar n_j3)])) -c (((EMemT n_me) *tc (EArrC n_s12 [(AVar n_j1)])) *c (EArrC n_s243 [(AVar n_j3)]))) -c (((EMemT n_me) *tc (EArrC n_s23 [(AVar n_j3)])) *c (EArrC n_s241 [(AVar n_j1)]))) +c ((EArrC n_a13 [(AVar n_j1); (AVar n_j3)]) *c (ELocC n_s2342)));,
SLoc rC n_numM (((((((EUn NegT (EMemT n_mh)) *t (EMemT n_mh)) *tc (EArrC n_a12 [(AVar n_j1)])) *c (EArrC n_a23 [(AVar n_j3)])) +c (((EMemT n_me) *tc (EArrC n_a12 [(AVar n_j1)])) *c (EArrC n_a243 [(AVar n_j3)]))) +c (((EMemT n_me) *tc (EArrC n_a23 [(AVar n_j3)])) *c (EArrC n_a241 [(AVar n_j1)]))) -c ((EArrC n_s13 [(AVar n_j1); (AVar n_j3)]) *c (ELocC n_a2342)));,
SLoc rT n_amp2 ((ELocT n_amp2) +t ((EUn Pow2T (EUn AbsC (ELocC n_numP))) +t (EUn Pow2T (EUn AbsC (ELocC n_numM))))))));,
SReturnT (((((((((((((EUn D2T (ELit (2 # 1))) *t (EMemT n_e)) *t (EMemT n_e)) *t (EMemT n_me)) *t (EMemT n_me)) *t (ELocT n_amp2)) /t (EMemT n_v)) /t (EMemT n_v)) /t (ELocT n_propDS)) /t (ELocT n_propDS)) /t (ELocT n_propDU)) /t (ELocT n_propDU)) /t (EUn D2T (ELit (4 # 1))))).
(** members: SM/include/eAeh.h 26-33; initialisers: SM/eAeh.cpp 32-33 *)
Definition eAeh : cls := mkCls "eAeh"
[(n_e, KT);
(n_me, KT);
(n_mh, KT);
(n_v, KT);
(n_p1, (KPart 0));
(n_p2, (KPart 1));
(n_p3, (KPart 2));
(n_p4, (KPart 3));
(n_prop, KProp);
(n_pDenS, KC);
(n_pDenU, KC);
(n_s12s, KSprod);
(n_a12a, KSprod);
(n_s23s, KSprod);
(n_a23a, KSprod);
(n_s13s, KSprod);
(n_a13a, KSprod);
(n_s243a, KSprod);
(n_a243s, KSprod);
(n_s241a, KSprod);
(n_a241s, KSprod);
(n_s2342s, KSprod);
(n_a2342a, KSprod);
(n_sqrt2, KT)]
[n_echarge; n_masse; n_massh; n_vev]
[(n_e, NT (ELocT n_echarge));
(n_me, NT (ELocT n_masse));
(n_mh, NT (ELocT n_massh));
(n_v, NT (ELocT n_vev));
(n_prop, NProp (ELocT n_masse) (EUn I2T (EInt 0)))]
eAeh_ctor
[eAeh_set_masses; eAeh_set_v; eAeh_set_momenta; eAeh_amp; eAeh_amp2; eAeh_amp2_Aplus; eAeh_amp2_momenta].

(** eWWe::eWWe: SM/eWWe.cpp 32-67 *)
Definition eWWe_ctor : stmt :=
(SLoc rT n_two (EUn I2T (EInt 2));,
SMemT n_sqrt2 (EUn SqrtT (ELocT n_two));,
SMemT n_MZ ((EMemT n_MW) /t (EMemT n_CW));,
SPropNew n_propZ (EMemT n_MZ) (EMemT n_WZ);,
SPropNew n_proph (EMemT n_mh) (EMemT n_wh);,
SParticle 0 (EMemT n_me);,
SParticle 1 (EMemT n_MW);,
SParticle 2 (EMemT n_MW);,
SParticle 3 (EMemT n_me);,
SSprod n_s12s false 0 [] 1;,
SSprod n_a12a true 0 [] 1;,
SSprod n_s23s false 1 [] 2;,
SSprod n_a23a true 1 [] 2;,
SSprod n_s13s false 0 [] 2;,
SSprod n_a13a true 0 [] 2;,
SSprod n_s34s false 2 [] 3;,
SSprod n_a34a true 2 [] 3;,
SSprod n_s24s false 1 [] 3;,
SSprod n_a24a true 1 [] 3;,
SSprod n_s14s false 0 [] 3;,
SSprod n_a14a true 0 [] 3;,
SSprod n_s213a false 1 [0] 2;,
SSprod n_s431a false 3 [2] 0;,
SSprod n_s134a false 0 [2] 3;,
SMemT n_prene ((((EUn D2T (ELit (2 # 1))) *t (EMemT n_e)) *t (EMemT n_e)) /t (((((EUn D2T (ELit (2 # 1))) *t (EMemT n_MW)) *t (EMemT n_MW)) *t (EMemT n_SW)) *t (EMemT n_SW)));,
SMemT n_preh (((((EUn D2T (ELit (2 # 1))) *t (EMemT n_e)) *t (EMemT n_e)) *t (EMemT n_me)) /t (((((EUn D2T (ELit (4 # 1))) *t (EMemT n_MW)) *t (EMemT n_MW)) *t (EMemT n_SW)) *t (EMemT n_SW)));,
SMemT n_preZ (((EMemT n_e) *t (EMemT n_e)) /t (((((EUn D2T (ELit (2 # 1))) *t (EMemT n_MW)) *t (EMemT n_MW)) *t (EMemT n_SW)) *t (EMemT n_SW)));,
SMemT n_gL ((((EUn D2T (ELit (2 # 1))) *t (EMemT n_SW)) *t (EMemT n_SW)) -t (EUn D2T (ELit (1 # 1))));,
SMemT n_gR (((EUn D2T (ELit (2 # 1))) *t (EMemT n_SW)) *t (EMemT n_SW));,
SMemT n_preA ((((EUn I2T (EInt 2)) *t (EMemT n_e)) *t (EMemT n_e)) /t (EMemT n_MW))).
(** eWWe::set_masses: SM/eWWe.cpp 68-84 *)
Definition eWWe_set_masses : meth := mkMeth n_set_masses [(n_masse, PkT); (n_massh, PkT); (n_massW, PkT)]
(SMemT n_me (ELocT n_masse);,
SMemT n_mh (ELocT n_massh);,
SMemT n_MW (ELocT n_massW);,
SMemT n_MZ ((EMemT n_MW) /t (EMemT n_CW));,
SSetMass 0 (EMemT n_me);,
SSetMass 1 (EMemT n_MW);,
SSetMass 2 (EMemT n_MW);,
SSetMass 3 (EMemT n_me);,
SPropMass n_proph (EMemT n_mh);,
SPropMass n_propZ (EMemT n_MZ);,
SMemT n_prene ((((EUn D2T (ELit (2 # 1))) *t (EMemT n_e)) *t (EMemT n_e)) /t (((((EUn D2T (ELit (2 # 1))) *t (EMemT n_MW)) *t (EMemT n_MW)) *t (EMemT n_SW)) *t (EMemT n_SW)));,
SMemT n_preh (((((EUn D2T (ELit (2 # 1))) *t (EMemT n_e)) *t (EMemT n_e)) *t (EMemT n_me)) /t (((((EUn D2T (ELit (4 # 1))) *t (EMemT n_MW)) *t (EMemT n_MW)) *t (EMemT n_SW)) *t (EMemT n_SW)));,
SMemT n_preZ (((EMemT n_e) *t (EMemT n_e)) /t (((((EUn D2T (ELit (2 # 1))) *t (EMemT n_MW)) *t (EMemT n_MW)) *t (EMemT n_SW)) *t (EMemT n_SW)));,
SMemT n_preA ((((EUn I2T (EInt 2)) *t (EMemT n_e)) *t (EMemT n_e)) /t (EMemT n_MW))).
(** eWWe::set_momenta: SM/eWWe.cpp 85-119 *)
Definition eWWe_set_momenta : meth := mkMeth n_set_momenta [(n_mom1, PkMom); (n_mom2, PkMom); (n_mom3, PkMom); (n_mom4, PkMom)]
(SSetMomentum 0 n_mom1;,
SSetMomentum 1 n_mom2;,
SSetMomentum 2 n_mom3;,
SSetMomentum 3 n_mom4;,
SUpdate n_s12s;,
SUpdate n_a12a;,
SUpdate n_s23s;,
SUpdate n_a23a;,
SUpdate n_s13s;,
SUpdate n_a13a;,
SUpdate n_s34s;,
SUpdate n_a34a;,
SUpdate n_s24s;,
SUpdate n_a24a;,
SUpdate n_s14s;,
SUpdate n_a14a;,
SUpdate n_s213a;,
SUpdate n_s431a;,
SUpdate n_s134a;,
SDeclT n_propSP 4;,
SDeclT n_propTP 4;,
SDeclT n_propUP 4;,
(SFor n_j (EInt 0) (EBin (CmpI CLt) (ELocI n_j) (EInt 4)) (EBin (OpI IAdd) (ELocI n_j) (EInt 1))
(SArrT n_propSP (AVar n_j) ((EArrT n_mom1 (AVar n_j)) +t (EArrT n_mom2 (AVar n_j)));,
SArrT n_propTP (AVar n_j) ((EArrT n_mom1 (AVar n_j)) -t (EArrT n_mom3 (AVar n_j)));,
SArrT n_propUP (AVar n_j) ((EArrT n_mom1 (AVar n_j)) -t (EArrT n_mom4 (AVar n_j)))));,
SMemC n_pDenhU (EDen n_proph n_propUP);,
SMemC n_pDenneS (EDen n_propne n_propSP);,
SMemC n_pDenZU (EDen n_propZ n_propUP);,
SMemC n_pDenAU (EDen n_propA n_propUP)).
(** eWWe::amp: SM/eWWe.cpp 124-204 *)
Definition eWWe_amp : meth := mkMeth n_amp [(n_ds1, PkI); (n_ds2, PkI); (n_ds3, PkI); (n_ds4, PkI)]
(SLoc rC n_amplitude (EBin OpTTC (EUn I2T (EInt 0)) (EUn I2T (EInt 0)));,
SDecl rI n_ds3a;,
SDecl rI n_ds3b;,
SDecl rI n_ds2a;,
SDecl rI n_ds2b;,
SLoc rT n_two (EUn I2T (EInt 2));,
SLoc rI n_nCombs (ENLoops [(AVar n_ds2); (AVar n_ds3)]);,
SLoc rT n_normFactor (ENorm [(AVar n_ds2); (AVar n_ds3)]);,
(SFor n_i (EInt 0) (EBin (CmpI CLt) (ELocI n_i) (ELocI n_nCombs)) (EBin (OpI IAdd) (ELocI n_i) (EInt 1))
(SSpins [(n_ds2, n_ds2a, n_ds2b); (n_ds3, n_ds3a, n_ds3b)] (AVar n_i);,
SLoc rC n_amplitude ((ELocC n_amplitude) +c ((((((EUn NegT (ELocT n_normFactor)) *t (EMemT n_preh)) *tc (EV n_s23s [(AVar n_ds2a); (AVar n_ds3a)])) *c (EV n_a23a [(AVar n_ds2b); (AVar n_ds3b)])) *c ((EV n_s14s [(AVar n_ds1); (AVar n_ds4)]) -c (EV n_a14a [(AVar n_ds1); (AVar n_ds4)]))) /c (EMemC n_pDenhU)));,
SLoc rC n_amplitude ((ELocC n_amplitude) +c ((((((EUn NegT (ELocT n_normFactor)) *t (EMemT n_prene)) *tc (EV n_s34s [(AVar n_ds3a); (AVar n_ds4)])) *c (EV n_a12a [(AVar n_ds1); (AVar n_ds2a)])) *c (((EMemT n_MW) *tc (EV n_a23a [(AVar n_ds2b); (AVar n_ds3b)])) +c (EV n_s213a [(AVar n_ds2b); (AVar n_ds3b)]))) /c (EMemC n_pDenneS)));,
SLoc rC n_amplitude ((ELocC n_amplitude) +c ((((((ELocT n_normFactor) *t (EMemT n_preA)) *tc (((((EV n_a12a [(AVar n_ds1); (AVar n_ds2a)]) *c (EV n_s34s [(AVar n_ds3a); (AVar n_ds4)])) +c ((EV n_s12s [(AVar n_ds1); (AVar n_ds2a)]) *c (EV n_a34a [(AVar n_ds3a); (AVar n_ds4)]))) -c ((EV n_a13a [(AVar n_ds1); (AVar n_ds3a)]) *c (EV n_s24s [(AVar n_ds2a); (AVar n_ds4)]))) -c ((EV n_s13s [(AVar n_ds1); (AVar n_ds3a)]) *c (EV n_a24a [(AVar n_ds2a); (AVar n_ds4)])))) *c ((EUn NegC (EV n_a23a [(AVar n_ds2b); (AVar n_ds3b)])) +c (EV n_s23s [(AVar n_ds2b); (AVar n_ds3b)]))) /c (EMemC n_pDenAU)) +c (((((ELocT n_normFactor) *t (EMemT n_preA)) /t (EMemT n_MW)) *tc (((EV n_s23s [(AVar n_ds2a); (AVar n_ds3a)]) *c (EV n_a23a [(AVar n_ds2b); (AVar n_ds3b)])) *c ((EV n_s431a [(AVar n_ds4); (AVar n_ds1)]) -c (EV n_s134a [(AVar n_ds1); (AVar n_ds4)])))) /c (EMemC n_pDenAU))));,
SLoc rC n_amplitude ((ELocC n_amplitude) +c ((((EUn NegT (ELocT n_normFactor)) *t (EMemT n_preZ)) *tc (((((((EUn NegT ((EMemT n_gL) -t (EMemT n_gR))) *t (EMemT n_me)) *tc (EV n_s23s [(AVar n_ds2a); (AVar n_ds3a)])) *c (EV n_a23a [(AVar n_ds2b); (AVar n_ds3b)])) *c ((EV n_s14s [(AVar n_ds1); (AVar n_ds4)]) +c (EV n_a14a [(AVar n_ds1); (AVar n_ds4)]))) +c ((((ELocT n_two) *tc (EV n_s23s [(AVar n_ds2a); (AVar n_ds3a)])) *c (EV n_a23a [(AVar n_ds2b); (AVar n_ds3b)])) *c (((EMemT n_gL) *tc (EV n_s431a [(AVar n_ds4); (AVar n_ds1)])) -c ((EMemT n_gR) *tc (EV n_s134a [(AVar n_ds1); (AVar n_ds4)]))))) +c ((((ELocT n_two) *t (EMemT n_MW)) *tc ((EV n_s23s [(AVar n_ds2a); (AVar n_ds3a)]) -c (EV n_a23a [(AVar n_ds2a); (AVar n_ds3a)]))) *c (((EMemT n_gL) *tc (((EV n_s34s [(AVar n_ds3b); (AVar n_ds4)]) *c (EV n_a12a [(AVar n_ds1); (AVar n_ds2b)])) -c ((EV n_s24s [(AVar n_ds2b); (AVar n_ds4)]) *c (EV n_a13a [(AVar n_ds1); (AVar n_ds3b)])))) +c ((EMemT n_gR) *tc (((EUn NegC (EV n_s13s [(AVar n_ds1); (AVar n_ds3b)])) *c (EV n_a24a [(AVar n_ds2b); (AVar n_ds4)])) +c ((EV n_s12s [(AVar n_ds1); (AVar n_ds2b)]) *c (EV n_a34a [(AVar n_ds3b); (AVar n_ds4)])))))))) /c (EMemC n_pDenZU)))));,
SReturnC (ELocC n_amplitude)).
(** eWWe::amp2: SM/eWWe.cpp 207-221 *)
Definition eWWe_amp2 : meth := mkMeth n_amp2 []
(SLoc rT n_amp2 (EUn I2T (EInt 0));,
SDecl rC n_M;,
(SFor n_j1 (EUn NegI (EInt 1)) (EBin (CmpI CLe) (ELocI n_j1) (EInt 1)) (EBin (OpI IAdd) (ELocI n_j1) (EInt 2))
(SFor n_j2 (EUn NegI (EInt 2)) (EBin (CmpI CLe) (ELocI n_j2) (EInt 2)) (EBin (OpI IAdd) (ELocI n_j2) (EInt 2))
(SFor n_j3 (EUn NegI (EInt 2)) (EBin (CmpI CLe) (ELocI n_j3) (EInt 2)) (EBin (OpI IAdd) (ELocI n_j3) (EInt 2))
(SFor n_j4 (EUn NegI (EInt 1)) (EBin (CmpI CLe) (ELocI n_j4) (EInt 1)) (EBin (OpI IAdd) (ELocI n_j4) (EInt 2))
(SLoc rC n_M (ECall n_amp [(AVar n_j1); (AVar n_j2); (AVar n_j3); (AVar n_j4)]);,
SLoc rT n_amp2 ((ELocT n_amp2) +t (EUn Pow2T (EUn AbsC (ELocC n_M)))))))));,
SReturnT ((ELocT n_amp2) /t (EUn D2T (ELit (6 # 1))))).
(** members: SM/include/eWWe.h 26-36; initialisers: SM/eWWe.cpp 32-33 *)
Definition eWWe : cls := mkCls "eWWe"
[(n_e, KT);
(n_me, KT);
(n_mh, KT);
(n_wh, KT);
(n_MW, KT);
(n_SW, KT);
(n_CW, KT);
(n_MZ, KT);
(n_WZ, KT);
(n_p1, (KPart 0));
(n_p2, (KPart 1));
(n_p3, (KPart 2));
(n_p4, (KPart 3));
(n_proph, KProp);
(n_propne, KProp);
(n_propZ, KProp);
(n_propA, KProp);
(n_pDenhU, KC);
(n_pDenneS, KC);
(n_pDenneT, KC);
(n_pDenZU, KC);
(n_pDenAU, KC);
(n_s12s, KSprod);
(n_a12a, KSprod);
(n_s23s, KSprod);
(n_a23a, KSprod);
(n_s13s, KSprod);
(n_a13a, KSprod);
(n_s34s, KSprod);
(n_a34a, KSprod);
(n_s24s, KSprod);
(n_a24a, KSprod);
(n_s14s, KSprod);
(n_a14a, KSprod);
(n_s213a, KSprod);
(n_s431a, KSprod);
(n_s134a, KSprod);
(n_sqrt2, KT);
(n_prene, KT);
(n_preh, KT);
(n_preZ, KT);
(n_gL, KT);
(n_gR, KT);
(n_preA, KT)]
[n_echarge; n_masse; n_massh; n_widthh; n_massW; n_sinW; n_widthZ]
[(n_e, NT (ELocT n_echarge));
(n_me, NT (ELocT n_masse));
(n_mh, NT (ELocT n_massh));
(n_wh, NT (ELocT n_widthh));
(n_MW, NT (ELocT n_massW));
(n_SW, NT (ELocT n_sinW));
(n_CW, NT (EUn SqrtT ((EUn D2T (ELit (1 # 1))) -t ((ELocT n_sinW) *t (ELocT n_sinW)))));
(n_MZ, NT ((ELocT n_massW) /t (EMemT n_CW)));
(n_WZ, NT (ELocT n_widthZ));
(n_propne, NProp (EUn I2T (EInt 0)) (EUn I2T (EInt 0)));
(n_propA, NProp (EUn I2T (EInt 0)) (EUn I2T (EInt 0)))]
eWWe_ctor
[eWWe_set_masses; eWWe_set_momenta; eWWe_amp; eWWe_amp2].

(** eZZe::eZZe: SM/eZZe.cpp 32-63 *)
Definition eZZe_ctor : stmt :=
(SLoc rT n_two (EUn I2T (EInt 2));,
SMemT n_sqrt2 (EUn SqrtT (ELocT n_two));,
SMemT n_MZ ((EMemT n_MW) /t (EMemT n_CW));,
SPropNew n_proph (EMemT n_mh) (EMemT n_wh);,
SParticle 0 (EMemT n_me);,
SParticle 1 (EMemT n_MZ);,
SParticle 2 (EMemT n_MZ);,
SParticle 3 (EMemT n_me);,
SSprod n_s12s false 0 [] 1;,
SSprod n_a12a true 0 [] 1;,
SSprod n_s23s false 1 [] 2;,
SSprod n_a23a true 1 [] 2;,
SSprod n_s13s false 0 [] 2;,
SSprod n_a13a true 0 [] 2;,
SSprod n_s34s false 2 [] 3;,
SSprod n_a34a true 2 [] 3;,
SSprod n_s24s false 1 [] 3;,
SSprod n_a24a true 1 [] 3;,
SSprod n_s14s false 0 [] 3;,
SSprod n_a14a true 0 [] 3;,
SSprod n_s312a false 2 [0] 1;,
SSprod n_s213a false 1 [0] 2;,
SMemT n_preTS (((EMemT n_e) *t (EMemT n_e)) /t (((((EUn D2T (ELit (2 # 1))) *t (EMemT n_MW)) *t (EMemT n_MW)) *t (EMemT n_SW)) *t (EMemT n_SW)));,
SMemT n_gL ((((EUn D2T (ELit (2 # 1))) *t (EMemT n_SW)) *t (EMemT n_SW)) -t (EUn D2T (ELit (1 # 1))));,
SMemT n_gR (((EUn D2T (ELit (2 # 1))) *t (EMemT n_SW)) *t (EMemT n_SW));,
SMemT n_preh ((((EMemT n_e) *t (EMemT n_e)) *t (EMemT n_me)) /t (((((EUn D2T (ELit (2 # 1))) *t (EMemT n_MW)) *t (EMemT n_MW)) *t (EMemT n_SW)) *t (EMemT n_SW)))).
(** eZZe::set_masses: SM/eZZe.cpp 64-78 *)
Definition eZZe_set_masses : meth := mkMeth n_set_masses [(n_masse, PkT); (n_massh, PkT); (n_massW, PkT)]
(SMemT n_me (ELocT n_masse);,
SMemT n_mh (ELocT n_massh);,
SMemT n_MW (ELocT n_massW);,
SMemT n_MZ ((EMemT n_MW) /t (EMemT n_CW));,
SSetMass 0 (EMemT n_me);,
SSetMass 1 (EMemT n_MZ);,
SSetMass 2 (EMemT n_MZ);,
SSetMass 3 (EMemT n_me);,
SPropMass n_prope (EMemT n_me);,
SPropMass n_proph (EMemT n_mh);,
SMemT n_preTS (((EMemT n_e) *t (EMemT n_e)) /t (((((EUn D2T (ELit (2 # 1))) *t (EMemT n_MW)) *t (EMemT n_MW)) *t (EMemT n_SW)) *t (EMemT n_SW)));,
SMemT n_preh ((((EMemT n_e) *t (EMemT n_e)) *t (EMemT n_me)) /t (((((EUn D2T (ELit (2 # 1))) *t (EMemT n_MW)) *t (EMemT n_MW)) *t (EMemT n_SW)) *t (EMemT n_SW)))).
(** eZZe::set_momenta: SM/eZZe.cpp 79-111 *)
Definition eZZe_set_momenta : meth := mkMeth n_set_momenta [(n_mom1, PkMom); (n_mom2, PkMom); (n_mom3, PkMom); (n_mom4, PkMom)]
(SSetMomentum 0 n_mom1;,
SSetMomentum 1 n_mom2;,
SSetMomentum 2 n_mom3;,
SSetMomentum 3 n_mom4;,
SUpdate n_s12s;,
SUpdate n_a12a;,
SUpdate n_s23s;,
SUpdate n_a23a;,
SUpdate n_s13s;,
SUpdate n_a13a;,
SUpdate n_s34s;,
SUpdate n_a34a;,
SUpdate n_s24s;,
SUpdate n_a24a;,
SUpdate n_s14s;,
SUpdate n_a14a;,
SUpdate n_s312a;,
SUpdate n_s213a;,
SDeclT n_propSP 4;,
SDeclT n_propTP 4;,
SDeclT n_propUP 4;,
(SFor n_j (EInt 0) (EBin (CmpI CLt) (ELocI n_j) (EInt 4)) (EBin (OpI IAdd) (ELocI n_j) (EInt 1))
(SArrT n_propSP (AVar n_j) ((EArrT n_mom1 (AVar n_j)) +t (EArrT n_mom2 (AVar n_j)));,
SArrT n_propTP (AVar n_j) ((EArrT n_mom1 (AVar n_j)) -t (EArrT n_mom3 (AVar n_j)));,
SArrT n_propUP (AVar n_j) ((EArrT n_mom1 (AVar n_j)) -t (EArrT n_mom4 (AVar n_j)))));,
SMemC n_pDenU (EDen n_proph n_propUP);,
SMemC n_pDenT (EDen n_prope n_propTP);,
SMemC n_pDenS (EDen n_prope n_propSP)).
(** eZZe::amp: SM/eZZe.cpp 116-176 *)
Definition eZZe_amp : meth := mkMeth n_amp [(n_ds1, PkI); (n_ds2, PkI); (n_ds3, PkI); (n_ds4, PkI)]
(SLoc rC n_amplitude (EBin OpTTC (EUn I2T (EInt 0)) (EUn I2T (EInt 0)));,
SDecl rI n_ds3a;,
SDecl rI n_ds3b;,
SDecl rI n_ds2a;,
SDecl rI n_ds2b;,
SLoc rI n_nCombs (ENLoops [(AVar n_ds2); (AVar n_ds3)]);,
SLoc rT n_normFactor (ENorm [(AVar n_ds2); (AVar n_ds3)]);,
(SFor n_i (EInt 0) (EBin (CmpI CLt) (ELocI n_i) (ELocI n_nCombs)) (EBin (OpI IAdd) (ELocI n_i) (EInt 1))
(SSpins [(n_ds2, n_ds2a, n_ds2b); (n_ds3, n_ds3a, n_ds3b)] (AVar n_i);,
SLoc rC n_amplitude ((ELocC n_amplitude) +c ((((((EUn NegT (ELocT n_normFactor)) *t (EMemT n_preh)) *tc (EV n_s23s [(AVar n_ds2a); (AVar n_ds3a)])) *c (EV n_a23a [(AVar n_ds2b); (AVar n_ds3b)])) *c ((EV n_s14s [(AVar n_ds1); (AVar n_ds4)]) -c (EV n_a14a [(AVar n_ds1); (AVar n_ds4)]))) /c (EMemC n_pDenU)));,
SLoc rC n_amplitude ((ELocC n_amplitude) +c ((((((((((EUn NegT (ELocT n_normFactor)) *t (EMemT n_preTS)) *t (EMemT n_gL)) *t (EMemT n_gL)) *tc (EV n_s24s [(AVar n_ds2a); (AVar n_ds4)])) *c (EV n_a13a [(AVar n_ds1); (AVar n_ds3a)])) *c (((EMemT n_MZ) *tc (EV n_a23a [(AVar n_ds2b); (AVar n_ds3b)])) +c (EV n_s312a [(AVar n_ds3b); (AVar n_ds2b)]))) /c (EMemC n_pDenT)) +c ((((((((ELocT n_normFactor) *t (EMemT n_preTS)) *t (EMemT n_gR)) *t (EMemT n_gR)) *tc (EV n_a24a [(AVar n_ds2a); (AVar n_ds4)])) *c (EV n_s13s [(AVar n_ds1); (AVar n_ds3a)])) *c (((EMemT n_MZ) *tc (EV n_s23s [(AVar n_ds2b); (AVar n_ds3b)])) +c (EV n_s213a [(AVar n_ds2b); (AVar n_ds3b)]))) /c (EMemC n_pDenT))) +c (((((((ELocT n_normFactor) *t (EMemT n_preTS)) *t (EMemT n_gL)) *t (EMemT n_gR)) *t (EMemT n_me)) *tc ((((EV n_s13s [(AVar n_ds1); (AVar n_ds3a)]) *c (EV n_s24s [(AVar n_ds2a); (AVar n_ds4)])) *c (EV n_a23a [(AVar n_ds2b); (AVar n_ds3b)])) -c (((EV n_a13a [(AVar n_ds1); (AVar n_ds3a)]) *c (EV n_a24a [(AVar n_ds2a); (AVar n_ds4)])) *c (EV n_s23s [(AVar n_ds2b); (AVar n_ds3b)])))) /c (EMemC n_pDenT))));,
SLoc rC n_amplitude ((ELocC n_amplitude) +c ((((((((((EUn NegT (ELocT n_normFactor)) *t (EMemT n_preTS)) *t (EMemT n_gL)) *t (EMemT n_gL)) *tc (EV n_s34s [(AVar n_ds3a); (AVar n_ds4)])) *c (EV n_a12a [(AVar n_ds1); (AVar n_ds2a)])) *c (((EMemT n_MZ) *tc (EV n_a23a [(AVar n_ds2b); (AVar n_ds3b)])) +c (EV n_s213a [(AVar n_ds2b); (AVar n_ds3b)]))) /c (EMemC n_pDenS)) +c ((((((((ELocT n_normFactor) *t (EMemT n_preTS)) *t (EMemT n_gR)) *t (EMemT n_gR)) *tc (EV n_s12s [(AVar n_ds1); (AVar n_ds2a)])) *c (EV n_a34a [(AVar n_ds3a); (AVar n_ds4)])) *c (((EMemT n_MZ) *tc (EV n_s23s [(AVar n_ds2b); (AVar n_ds3b)])) +c (EV n_s312a [(AVar n_ds3b); (AVar n_ds2b)]))) /c (EMemC n_pDenS))) +c (((((((ELocT n_normFactor) *t (EMemT n_preTS)) *t (EMemT n_gL)) *t (EMemT n_gR)) *t (EMemT n_me)) *tc ((((EUn NegC (EV n_s12s [(AVar n_ds1); (AVar n_ds2a)])) *c (EV n_s34s [(AVar n_ds3a); (AVar n_ds4)])) *c (EV n_a23a [(AVar n_ds2b); (AVar n_ds3b)])) +c (((EV n_a12a [(AVar n_ds1); (AVar n_ds2a)]) *c (EV n_a34a [(AVar n_ds3a); (AVar n_ds4)])) *c (EV n_s23s [(AVar n_ds2b); (AVar n_ds3b)])))) /c (EMemC n_pDenS))))));,
SReturnC (ELocC n_amplitude)).
(** eZZe::amp2: SM/eZZe.cpp 179-193 *)
Definition eZZe_amp2 : meth := mkMeth n_amp2 []
(SLoc rT n_amp2 (EUn I2T (EInt 0));,
SDecl rC n_M;,
(SFor n_j1 (EUn NegI (EInt 1)) (EBin (CmpI CLe) (ELocI n_j1) (EInt 1)) (EBin (OpI IAdd) (ELocI n_j1) (EInt 2))
(SFor n_j2 (EUn NegI (EInt 2)) (EBin (CmpI CLe) (ELocI n_j2) (EInt 2)) (EBin (OpI IAdd) (ELocI n_j2) (EInt 2))
(SFor n_j3 (EUn NegI (EInt 2)) (EBin (CmpI CLe) (ELocI n_j3) (EInt 2)) (EBin (OpI IAdd) (ELocI n_j3) (EInt 2))
(SFor n_j4 (EUn NegI (EInt 1)) (EBin (CmpI CLe) (ELocI n_j4) (EInt 1)) (EBin (OpI IAdd) (ELocI n_j4) (EInt 2))
(SLoc rC n_M (ECall n_amp [(AVar n_j1); (AVar n_j2); (AVar n_j3); (AVar n_j4)]);,
SLoc rT n_amp2 ((ELocT n_amp2) +t (EUn Pow2T (EUn AbsC (ELocC n_M)))))))));,
SReturnT ((ELocT n_amp2) /t (EUn D2T (ELit (6 # 1))))).
(** members: SM/include/eZZe.h 26-36; initialisers: SM/eZZe.cpp 32-33 *)
Definition eZZe : cls := mkCls "eZZe"
[(n_e, KT);
(n_me, KT);
(n_mh, KT);
(n_wh, KT);
(n_MW, KT);
(n_SW, KT);
(n_CW, KT);
(n_MZ, KT);
(n_WZ, KT);
(n_p1, (KPart 0));
(n_p2, (KPart 1));
(n_p3, (KPart 2));
(n_p4, (KPart 3));
(n_proph, KProp);
(n_prope, KProp);
(n_pDenS, KC);
(n_pDenT, KC);
(n_pDenU, KC);
(n_s12s, KSprod);
(n_a12a, KSprod);
(n_s23s, KSprod);
(n_a23a, KSprod);
(n_s13s, KSprod);
(n_a13a, KSprod);
(n_s34s, KSprod);
(n_a34a, KSprod);
(n_s24s, KSprod);
(n_a24a, KSprod);
(n_s14s, KSprod);
(n_a14a, KSprod);
(n_s312a, KSprod);
(n_s213a, KSprod);
(n_sqrt2, KT);
(n_preTS, KT);
(n_preh, KT);
(n_gL, KT);
(n_gR, KT)]
[n_echarge; n_masse; n_massh; n_widthh; n_massW; n_sinW; n_widthZ]
[(n_e, NT (ELocT n_echarge));
(n_me, NT (ELocT n_masse));
(n_mh, NT (ELocT n_massh));
(n_wh, NT (ELocT n_widthh));
(n_MW, NT (ELocT n_massW));
(n_SW, NT (ELocT n_sinW));
(n_CW, NT (EUn SqrtT ((EUn D2T (ELit (1 # 1))) -t ((ELocT n_sinW) *t (ELocT n_sinW)))));
(n_MZ, NT ((ELocT n_massW) /t (EMemT n_CW)));
(n_WZ, NT (ELocT n_widthZ));
(n_prope, NProp (ELocT n_masse) (EUn I2T (EInt 0)))]
eZZe_ctor
[eZZe_set_masses; eZZe_set_momenta; eZZe_amp; eZZe_amp2].

(** eZeh::eZeh: SM/eZeh.cpp 32-60 *)
Definition eZeh_ctor : stmt :=
(SLoc rT n_two (EUn I2T (EInt 2));,
SMemT n_sqrt2 (EUn SqrtT (ELocT n_two));,
SMemT n_MZ ((EMemT n_MW) /t (EMemT n_CW));,
SPropNew n_propZ (EMemT n_MZ) (EMemT n_WZ);,
SParticle 0 (EMemT n_me);,
SParticle 1 (EMemT n_MZ);,
SParticle 2 (EMemT n_me);,
SParticle 3 (EMemT n_mh);,
SSprod n_s12s false 0 [] 1;,
SSprod n_a12a true 0 [] 1;,
SSprod n_s23s false 1 [] 2;,
SSprod n_a23a true 1 [] 2;,
SSprod n_s13s false 0 [] 2;,
SSprod n_a13a true 0 [] 2;,
SSprod n_s312a false 2 [0] 1;,
SSprod n_s213a false 1 [0] 2;,
SSprod n_s242a false 1 [3] 1;,
SSprod n_s142a false 0 [3] 1;,
SSprod n_s241a false 1 [3] 0;,
SMemT n_preSU (((((EMemT n_sqrt2) *t (EMemT n_e)) *t (EMemT n_e)) *t (EMemT n_me)) /t (((((EUn D2T (ELit (4 # 1))) *t (EMemT n_MW)) *t (EMemT n_MW)) *t (EMemT n_SW)) *t (EMemT n_SW)));,
SMemT n_gL ((((EUn D2T (ELit (2 # 1))) *t (EMemT n_SW)) *t (EMemT n_SW)) -t (EUn D2T (ELit (1 # 1))));,
SMemT n_gR (((EUn D2T (ELit (2 # 1))) *t (EMemT n_SW)) *t (EMemT n_SW));,
SMemT n_preZ ((((EMemT n_sqrt2) *t (EMemT n_e)) *t (EMemT n_e)) /t (((((EUn D2T (ELit (4 # 1))) *t (EMemT n_MW)) *t (EMemT n_MW)) *t (EMemT n_SW)) *t (EMemT n_SW)))).
(** eZeh::set_masses: SM/eZeh.cpp 61-75 *)
Definition eZeh_set_masses : meth := mkMeth n_set_masses [(n_masse, PkT); (n_massh, PkT); (n_massW, PkT)]
(SMemT n_me (ELocT n_masse);,
SMemT n_mh (ELocT n_massh);,
SMemT n_MW (ELocT n_massW);,
SMemT n_MZ ((EMemT n_MW) /t (EMemT n_CW));,
SSetMass 0 (EMemT n_me);,
SSetMass 1 (EMemT n_MZ);,
SSetMass 2 (EMemT n_me);,
SSetMass 3 (EMemT n_mh);,
SPropMass n_prope (EMemT n_me);,
SPropMass n_propZ (EMemT n_MZ);,
SMemT n_preSU (((((EMemT n_sqrt2) *t (EMemT n_e)) *t (EMemT n_e)) *t (EMemT n_me)) /t (((((EUn D2T (ELit (4 # 1))) *t (EMemT n_MW)) *t (EMemT n_MW)) *t (EMemT n_SW)) *t (EMemT n_SW)));,
SMemT n_preZ ((((EMemT n_sqrt2) *t (EMemT n_e)) *t (EMemT n_e)) /t (((((EUn D2T (ELit (4 # 1))) *t (EMemT n_MW)) *t (EMemT n_MW)) *t (EMemT n_SW)) *t (EMemT n_SW)))).
(** eZeh::set_momenta: SM/eZeh.cpp 76-105 *)
Definition eZeh_set_momenta : meth := mkMeth n_set_momenta [(n_mom1, PkMom); (n_mom2, PkMom); (n_mom3, PkMom); (n_mom4, PkMom)]
(SSetMomentum 0 n_mom1;,
SSetMomentum 1 n_mom2;,
SSetMomentum 2 n_mom3;,
SSetMomentum 3 n_mom4;,
SUpdate n_s12s;,
SUpdate n_a12a;,
SUpdate n_s23s;,
SUpdate n_a23a;,
SUpdate n_s13s;,
SUpdate n_a13a;,
SUpdate n_s312a;,
SUpdate n_s213a;,
SUpdate n_s242a;,
SUpdate n_s142a;,
SUpdate n_s241a;,
SDeclT n_propSP 4;,
SDeclT n_propTP 4;,
SDeclT n_propUP 4;,
(SFor n_j (EInt 0) (EBin (CmpI CLt) (ELocI n_j) (EInt 4)) (EBin (OpI IAdd) (ELocI n_j) (EInt 1))
(SArrT n_propSP (AVar n_j) ((EArrT n_mom1 (AVar n_j)) +t (EArrT n_mom2 (AVar n_j)));,
SArrT n_propTP (AVar n_j) ((EArrT n_mom1 (AVar n_j)) -t (EArrT n_mom3 (AVar n_j)));,
SArrT n_propUP (AVar n_j) ((EArrT n_mom1 (AVar n_j)) -t (EArrT n_mom4 (AVar n_j)))));,
SMemC n_pDenT (EDen n_propZ n_propTP);,
SMemC n_pDenS (EDen n_prope n_propSP);,
SMemC n_pDenU (EDen n_prope n_propUP)).
(** eZeh::amp: SM/eZeh.cpp 110-162 *)
Definition eZeh_amp : meth := mkMeth n_amp [(n_ds1, PkI); (n_ds2, PkI); (n_ds3, PkI)]
(SLoc rC n_amplitude (EBin OpTTC (EUn I2T (EInt 0)) (EUn I2T (EInt 0)));,
SDecl rI n_ds2a;,
SDecl rI n_ds2b;,
SLoc rI n_nCombs (ENLoops [(AVar n_ds2)]);,
SLoc rT n_normFactor (ENorm [(AVar n_ds2)]);,
(SFor n_i (EInt 0) (EBin (CmpI CLt) (ELocI n_i) (ELocI n_nCombs)) (EBin (OpI IAdd) (ELocI n_i) (EInt 1))
(SSpins [(n_ds2, n_ds2a, n_ds2b)] (AVar n_i);,
SLoc rC n_amplitude ((ELocC n_amplitude) +c ((((ELocT n_normFactor) *t (EMemT n_preZ)) *tc (((((EMemT n_me) *t ((EMemT n_gL) -t (EMemT n_gR))) *tc ((EV n_a13a [(AVar n_ds1); (AVar n_ds3)]) +c (EV n_s13s [(AVar n_ds1); (AVar n_ds3)]))) *c (EV n_s242a [(AVar n_ds2a); (AVar n_ds2b)])) -c ((((EUn D2T (ELit (2 # 1))) *t (EMemT n_MZ)) *t (EMemT n_MZ)) *tc ((((EMemT n_gL) *tc (EV n_s23s [(AVar n_ds2a); (AVar n_ds3)])) *c (EV n_a12a [(AVar n_ds1); (AVar n_ds2b)])) -c (((EMemT n_gR) *tc (EV n_s12s [(AVar n_ds1); (AVar n_ds2a)])) *c (EV n_a23a [(AVar n_ds2b); (AVar n_ds3)])))))) /c (EMemC n_pDenT)));,
SLoc rC n_amplitude ((ELocC n_amplitude) +c ((((EUn NegT (ELocT n_normFactor)) *t (EMemT n_preSU)) *tc ((((EMemT n_gL) *tc (EV n_a12a [(AVar n_ds1); (AVar n_ds2a)])) *c ((((EMemT n_me) *tc (EV n_s23s [(AVar n_ds2b); (AVar n_ds3)])) -c (EV n_s213a [(AVar n_ds2b); (AVar n_ds3)])) -c ((EMemT n_MZ) *tc (EV n_a23a [(AVar n_ds2b); (AVar n_ds3)])))) +c (((EMemT n_gR) *tc (EV n_s12s [(AVar n_ds1); (AVar n_ds2a)])) *c ((((EMemT n_MZ) *tc (EV n_s23s [(AVar n_ds2b); (AVar n_ds3)])) +c (EV n_s312a [(AVar n_ds3); (AVar n_ds2b)])) -c ((EMemT n_me) *tc (EV n_a23a [(AVar n_ds2b); (AVar n_ds3)])))))) /c (EMemC n_pDenS)));,
SLoc rC n_amplitude ((ELocC n_amplitude) +c ((((EUn NegT (ELocT n_normFactor)) *t (EMemT n_preSU)) *tc ((((EMemT n_gL) *tc (EV n_s23s [(AVar n_ds2a); (AVar n_ds3)])) *c ((EUn NegC (EV n_s142a [(AVar n_ds1); (AVar n_ds2b)])) +c (((EUn D2T (ELit (2 # 1))) *t (EMemT n_me)) *tc (EV n_a12a [(AVar n_ds1); (AVar n_ds2b)])))) -c (((EMemT n_gR) *tc (EV n_a23a [(AVar n_ds2a); (AVar n_ds3)])) *c ((EUn NegC (EV n_s241a [(AVar n_ds2b); (AVar n_ds1)])) +c (((EUn D2T (ELit (2 # 1))) *t (EMemT n_me)) *tc (EV n_s12s [(AVar n_ds1); (AVar n_ds2b)])))))) /c (EMemC n_pDenU)))));,
SReturnC (ELocC n_amplitude)).
(** eZeh::amp2: SM/eZeh.cpp 165-178 *)
Definition eZeh_amp2 : meth := mkMeth n_amp2 []
(SLoc rT n_amp2 (EUn I2T (EInt 0));,
SDecl rC n_M;,
(SFor n_j1 (EUn NegI (EInt 1)) (EBin (CmpI CLe) (ELocI n_j1) (EInt 1)) (EBin (OpI IAdd) (ELocI n_j1) (EInt 2))
(SFor n_j2 (EUn NegI (EInt 2)) (EBin (CmpI CLe) (ELocI n_j2) (EInt 2)) (EBin (OpI IAdd) (ELocI n_j2) (EInt 2))
(SFor n_j3 (EUn NegI (EInt 1)) (EBin (CmpI CLe) (ELocI n_j3) (EInt 1)) (EBin (OpI IAdd) (ELocI n_j3) (EInt 2))
(SLoc rC n_M (ECall n_amp [(AVar n_j1); (AVar n_j2); (AVar n_j3)]);,
SLoc rT n_amp2 ((ELocT n_amp2) +t (EUn Pow2T (EUn AbsC (ELocC n_M))))))));,
SReturnT ((ELocT n_amp2) /t (EUn D2T (ELit (6 # 1))))).
(** members: SM/include/eZeh.h 26-36; initialisers: SM/eZeh.cpp 32-33 *)
Definition eZeh : cls := mkCls "eZeh"
[(n_e, KT);
(n_me, KT);
(n_mh, KT);
(n_wh, KT);
(n_MW, KT);
(n_SW, KT);
(n_CW, KT);
(n_MZ, KT);
(n_WZ, KT);
(n_p1, (KPart 0));
(n_p2, (KPart 1));
(n_p3, (KPart 2));
(n_p4, (KPart 3));
(n_propZ, KProp);
(n_prope, KProp);
(n_pDenS, KC);
(n_pDenT, KC);
(n_pDenU, KC);
(n_s12s, KSprod);
(n_a12a, KSprod);
(n_s23s, KSprod);
(n_a23a, KSprod);
(n_s13s, KSprod);
(n_a13a, KSprod);
(n_s312a, KSprod);
(n_s213a, KSprod);
(n_s242a, KSprod);
(n_s142a, KSprod);
(n_s241a, KSprod);
(n_sqrt2, KT);
(n_preSU, KT);
(n_preZ, KT);
(n_gL, KT);
(n_gR, KT)]
[n_echarge; n_masse; n_massh; n_widthh; n_massW; n_sinW; n_widthZ]
[(n_e, NT (ELocT n_echarge));
(n_me, NT (ELocT n_masse));
(n_mh, NT (ELocT n_massh));
(n_wh, NT (ELocT n_widthh));
(n_MW, NT (ELocT n_massW));
(n_SW, NT (ELocT n_sinW));
(n_CW, NT (EUn SqrtT ((EUn D2T (ELit (1 # 1))) -t ((ELocT n_sinW) *t (ELocT n_sinW)))));
(n_MZ, NT ((ELocT n_massW) /t (EMemT n_CW)));
(n_WZ, NT (ELocT n_widthZ));
(n_prope, NProp (ELocT n_masse) (EUn I2T (EInt 0)))]
eZeh_ctor
[eZeh_set_masses; eZeh_set_momenta; eZeh_amp; eZeh_amp2].

(** eeAA::eeAA: SM/eeAA.cpp 32-54 *)
Definition eeAA_ctor : stmt :=
(SLoc rT n_two (EUn I2T (EInt 2));,
SMemT n_sqrt2 (EUn SqrtT (ELocT n_two));,
SParticle 0 (EMemT n_me);,
SParticle 1 (EMemT n_me);,
SParticle 2 (EUn I2T (EInt 0));,
SParticle 3 (EUn I2T (EInt 0));,
SSprod n_s34s false 2 [] 3;,
SSprod n_a34a true 2 [] 3;,
SSprod n_s12s false 0 [] 1;,
SSprod n_a12a true 0 [] 1;,
SSprod n_s13s false 0 [] 2;,
SSprod n_a13a true 0 [] 2;,
SSprod n_s24s false 1 [] 3;,
SSprod n_a24a true 1 [] 3;,
SSprod n_s23s false 1 [] 2;,
SSprod n_a23a true 1 [] 2;,
SSprod n_s14s false 0 [] 3;,
SSprod n_a14a true 0 [] 3;,
SSprod n_s314a false 2 [0] 3;,
SSprod n_s413a false 3 [0] 2).
(** eeAA::set_masses: SM/eeAA.cpp 55-60 *)
Definition eeAA_set_masses : meth := mkMeth n_set_masses [(n_masse, PkT)]
(SMemT n_me (ELocT n_masse);,
SSetMass 0 (EMemT n_me);,
SSetMass 1 (EMemT n_me);,
SPropMass n_prop (EMemT n_me)).
(** eeAA::set_momenta: SM/eeAA.cpp 61-90 *)
Definition eeAA_set_momenta : meth := mkMeth n_set_momenta [(n_mom1, PkMom); (n_mom2, PkMom); (n_mom3, PkMom); (n_mom4, PkMom)]
(SSetMomentum 0 n_mom1;,
SSetMomentum 1 n_mom2;,
SSetMomentum 2 n_mom3;,
SSetMomentum 3 n_mom4;,
SUpdate n_s34s;,
SUpdate n_a34a;,
SUpdate n_s12s;,
SUpdate n_a12a;,
SUpdate n_s13s;,
SUpdate n_a13a;,
SUpdate n_s24s;,
SUpdate n_a24a;,
SUpdate n_s23s;,
SUpdate n_a23a;,
SUpdate n_s14s;,
SUpdate n_a14a;,
SUpdate n_s314a;,
SUpdate n_s413a;,
SDeclT n_propTP 4;,
SDeclT n_propUP 4;,
(SFor n_j (EInt 0) (EBin (CmpI CLt) (ELocI n_j) (EInt 4)) (EBin (OpI IAdd) (ELocI n_j) (EInt 1))
(SArrT n_propTP (AVar n_j) ((EArrT n_mom1 (AVar n_j)) -t (EArrT n_mom3 (AVar n_j)));,
SArrT n_propUP (AVar n_j) ((EArrT n_mom1 (AVar n_j)) -t (EArrT n_mom4 (AVar n_j)))));,
SMemC n_pDenT (EDen n_prop n_propTP);,
SMemC n_pDenU (EDen n_prop n_propUP)).
(** eeAA::amp: SM/eeAA.cpp 97-116 *)
Definition eeAA_amp : meth := mkMeth n_amp [(n_ds1, PkI); (n_ds2, PkI); (n_ds3, PkI); (n_ds4, PkI)]
((SIf (EAnd (EBin (CmpI CGt) (ELocI n_ds3) (EInt 0)) (EBin (CmpI CGt) (ELocI n_ds4) (EInt 0)))
(SReturnC (((((((((EUn D2T (ELit (2 # 1))) *t (EMemT n_e)) *t (EMemT n_e)) *t (EMemT n_me)) *tc (EV n_s34s [])) *c (EV n_s34s [])) *c (EV n_a12a [(AVar n_ds1); (AVar n_ds2)])) /c (EMemC n_pDenT)) /c (EMemC n_pDenU)))
((SIf (EAnd (EBin (CmpI CLt) (ELocI n_ds3) (EInt 0)) (EBin (CmpI CLt) (ELocI n_ds4) (EInt 0)))
(SReturnC (((((((((EUn D2T (ELit (2 # 1))) *t (EMemT n_e)) *t (EMemT n_e)) *t (EMemT n_me)) *tc (EV n_a34a [])) *c (EV n_a34a [])) *c (EV n_s12s [(AVar n_ds1); (AVar n_ds2)])) /c (EMemC n_pDenT)) /c (EMemC n_pDenU)))
((SIf (EAnd (EBin (CmpI CGt) (ELocI n_ds3) (EInt 0)) (EBin (CmpI CLt) (ELocI n_ds4) (EInt 0)))
(SReturnC (((((((EUn D2T (ELit (2 # 1))) *t (EMemT n_e)) *t (EMemT n_e)) *tc (((EV n_s13s [(AVar n_ds1)]) *c (EV n_a24a [(AVar n_ds2)])) +c ((EV n_s23s [(AVar n_ds2)]) *c (EV n_a14a [(AVar n_ds1)])))) *c (EV n_s314a [])) /c (EMemC n_pDenT)) /c (EMemC n_pDenU)))
((SIf (EAnd (EBin (CmpI CLt) (ELocI n_ds3) (EInt 0)) (EBin (CmpI CGt) (ELocI n_ds4) (EInt 0)))
(SReturnC (((((((EUn D2T (ELit (2 # 1))) *t (EMemT n_e)) *t (EMemT n_e)) *tc (((EV n_a13a [(AVar n_ds1)]) *c (EV n_s24s [(AVar n_ds2)])) +c ((EV n_a23a [(AVar n_ds2)]) *c (EV n_s14s [(AVar n_ds1)])))) *c (EV n_s413a [])) /c (EMemC n_pDenT)) /c (EMemC n_pDenU)))
(SSkip))))))));,
SReturnC (EBin OpTTC (EUn I2T (EInt 0)) (EUn I2T (EInt 0)))).
(** eeAA::amp2: SM/eeAA.cpp 118-133 *)
Definition eeAA_amp2 : meth := mkMeth n_amp2 []
(SLoc rT n_amp2 (EUn I2T (EInt 0));,
SDecl rC n_M;,
(SFor n_j1 (EUn NegI (EInt 1)) (EBin (CmpI CLe) (ELocI n_j1) (EInt 1)) (EBin (OpI IAdd) (ELocI n_j1) (EInt 2))
(SFor n_j2 (EUn NegI (EInt 1)) (EBin (CmpI CLe) (ELocI n_j2) (EInt 1)) (EBin (OpI IAdd) (ELocI n_j2) (EInt 2))
(SFor n_j3 (EUn NegI (EInt 2)) (EBin (CmpI CLe) (ELocI n_j3) (EInt 2)) (EBin (OpI IAdd) (ELocI n_j3) (EInt 4))
(SFor n_j4 (EUn NegI (EInt 2)) (EBin (CmpI CLe) (ELocI n_j4) (EInt 2)) (EBin (OpI IAdd) (ELocI n_j4) (EInt 4))
(SLoc rC n_M (ECall n_amp [(AVar n_j1); (AVar n_j2); (AVar n_j3); (AVar n_j4)]);,
SLoc rT n_amp2 ((ELocT n_amp2) +t (EUn Pow2T (EUn AbsC (ELocC n_M)))))))));,
SReturnT ((ELocT n_amp2) /t (EUn D2T (ELit (8 # 1))))).
(** eeAA::amp2_momenta: SM/eeAA.cpp 137-189 *)
Definition eeAA_amp2_momenta : meth := mkMeth n_amp2_momenta [(n_mom1, PkMom); (n_mom2, PkMom); (n_mom3, PkMom); (n_mom4, PkMom)]
(SSetMomentum 0 n_mom1;,
SSetMomentum 1 n_mom2;,
SSetMomentum 2 n_mom3;,
SSetMomentum 3 n_mom4;,
SDeclT n_propTP 4;,
SDeclT n_propUP 4;,
(SFor n_j (EInt 0) (EBin (CmpI CLt) (ELocI n_j) (EInt 4)) (EBin (OpI IAdd) (ELocI n_j) (EInt 1))
(SArrT n_propTP (AVar n_j) ((EArrT n_mom1 (AVar n_j)) -t (EArrT n_mom3 (AVar n_j)));,
SArrT n_propUP (AVar n_j) ((EArrT n_mom1 (AVar n_j)) -t (EArrT n_mom4 (AVar n_j)))));,
SLoc rT n_propDT (EUn ReC (EDen n_prop n_propTP));,
SLoc rT n_propDU (EUn ReC (EDen n_prop n_propUP));,
SLoc rT n_amp2 (EUn I2T (EInt 0));,
SDecl rC n_s34;,
SDecl rC n_a34;,
SDecl rC n_s12;,
SDecl rC n_a12;,
SDecl rC n_s13;,
SDecl rC n_a13;,
SDecl rC n_s24;,
SDecl rC n_a24;,
SDecl rC n_s23;,
SDecl rC n_a23;,
SDecl rC n_s14;,
SDecl rC n_a14;,
SDecl rC n_s314;,
SDecl rC n_s413;,
SDecl rC n_numPP;,
SDecl rC n_numMM;,
SDecl rC n_numPM;,
SDecl rC n_numMP;,
SLoc rC n_s34 (EBin OpVV (ESpinor0 2 LSquare) (ESpinor0 3 RSquare));,
SLoc rC n_a34 (EBin OpVV (ESpinor0 2 LAngle) (ESpinor0 3 RAngle));,
SLoc rC n_s314 (EBin OpVV (EBin OpVM (ESpinor0 2 LSquare) (EMat 0 true)) (ESpinor0 3 RAngle));,
SLoc rC n_s413 (EBin OpVV (EBin OpVM (ESpinor0 3 LSquare) (EMat 0 true)) (ESpinor0 2 RAngle));,
(SFor n_j1 (EUn NegI (EInt 1)) (EBin (CmpI CLe) (ELocI n_j1) (EInt 1)) (EBin (OpI IAdd) (ELocI n_j1) (EInt 2))
(SFor n_j2 (EUn NegI (EInt 1)) (EBin (CmpI CLe) (ELocI n_j2) (EInt 1)) (EBin (OpI IAdd) (ELocI n_j2) (EInt 2))
(SLoc rC n_s12 (EBin OpVV (ESpinor1 0 LSquare (ELocI n_j1)) (ESpinor1 1 RSquare (ELocI n_j2)));,
SLoc rC n_a12 (EBin OpVV (ESpinor1 0 LAngle (ELocI n_j1)) (ESpinor1 1 RAngle (ELocI n_j2)));,
SLoc rC n_s13 (EBin OpVV (ESpinor1 0 LSquare (ELocI n_j1)) (ESpinor0 2 RSquare));,
SLoc rC n_a13 (EBin OpVV (ESpinor1 0 LAngle (ELocI n_j1)) (ESpinor0 2 RAngle));,
SLoc rC n_s24 (EBin OpVV (ESpinor1 1 LSquare (ELocI n_j2)) (ESpinor0 3 RSquare));,
SLoc rC n_a24 (EBin OpVV (ESpinor1 1 LAngle (ELocI n_j2)) (ESpinor0 3 RAngle));,
SLoc rC n_s23 (EBin OpVV (ESpinor1 1 LSquare (ELocI n_j2)) (ESpinor0 2 RSquare));,
SLoc rC n_a23 (EBin OpVV (ESpinor1 1 LAngle (ELocI n_j2)) (ESpinor0 2 RAngle));,
SLoc rC n_s14 (EBin OpVV (ESpinor1 0 LSquare (ELocI n_j1)) (ESpinor0 3 RSquare));,
SLoc rC n_a14 (EBin OpVV (ESpinor1 0 LAngle (ELocI n_j1)) (ESpinor0 3 RAngle));,
SLoc rC n_numPP ((((EMemT n_me) *tc (ELocC n_s34)) *c (ELocC n_s34)) *c (ELocC n_a12));,
SLoc rC n_numMM ((((EMemT n_me) *tc (ELocC n_a34)) *c (ELocC n_a34)) *c (ELocC n_s12));,
SLoc rC n_numPM ((((ELocC n_s13) *c (ELocC n_a24)) +c ((ELocC n_s23) *c (ELocC n_a14))) *c (ELocC n_s314));,
SLoc rC n_numMP ((((ELocC n_a13) *c (ELocC n_s24)) +c ((ELocC n_a23) *c (ELocC n_s14))) *c (ELocC n_s413));,
SLoc rT n_amp2 ((ELocT n_amp2) +t ((((EUn Pow2T (EUn AbsC (ELocC n_numPP))) +t (EUn Pow2T (EUn AbsC (ELocC n_numMM)))) +t (EUn Pow2T (EUn AbsC (ELocC n_numPM)))) +t (EUn Pow2T (EUn AbsC (ELocC n_numMP))))))));,
SReturnT (((((((((((EMemT n_e) *t (EMemT n_e)) *t (EMemT n_e)) *t (EMemT n_e)) *t (EUn D2T (ELit (4 # 1)))) *t (ELocT n_amp2)) /t (ELocT n_propDT)) /t (ELocT n_propDT)) /t (ELocT n_propDU)) /t (ELocT n_propDU)) /t (EUn D2T (ELit (8 # 1))))).
(** members: SM/include/eeAA.h 26-32; initialisers: SM/eeAA.cpp 32-33 *)
Definition eeAA : cls := mkCls "eeAA"
[(n_e, KT);
(n_me, KT);
(n_p1, (KPart 0));
(n_p2, (KPart 1));
(n_p3, (KPart 2));
(n_p4, (KPart 3));
(n_prop, KProp);
(n_pDenT, KC);
(n_pDenU, KC);
(n_s34s, KSprod);
(n_a34a, KSprod);
(n_s12s, KSprod);
(n_a12a, KSprod);
(n_s13s, KSprod);
(n_a13a, KSprod);
(n_s24s, KSprod);
(n_a24a, KSprod);
(n_s23s, KSprod);
(n_a23a, KSprod);
(n_s14s, KSprod);
(n_a14a, KSprod);
(n_s314a, KSprod);
(n_s413a, KSprod);
(n_sqrt2, KT)]
[n_echarge; n_masse]
[(n_e, NT (ELocT n_echarge));
(n_me, NT (ELocT n_masse));
(n_prop, NProp (ELocT n_masse) (EUn I2T (EInt 0)))]
eeAA_ctor
[eeAA_set_masses; eeAA_set_momenta; eeAA_amp; eeAA_amp2; eeAA_amp2_momenta].

(** eeAZ::eeAZ: SM/eeAZ.cpp 32-60 *)
Definition eeAZ_ctor : stmt :=
(SLoc rT n_two (EUn I2T (EInt 2));,
SMemT n_sqrt2 (EUn SqrtT (ELocT n_two));,
SMemT n_MZ ((EMemT n_MW) /t (EMemT n_CW));,
SParticle 0 (EMemT n_me);,
SParticle 1 (EMemT n_me);,
SParticle 2 (EUn I2T (EInt 0));,
SParticle 3 (EMemT n_MZ);,
SSprod n_s12s false 0 [] 1;,
SSprod n_a12a true 0 [] 1;,
SSprod n_s23s false 1 [] 2;,
SSprod n_a23a true 1 [] 2;,
SSprod n_s13s false 0 [] 2;,
SSprod n_a13a true 0 [] 2;,
SSprod n_s34s false 2 [] 3;,
SSprod n_a34a true 2 [] 3;,
SSprod n_s24s false 1 [] 3;,
SSprod n_a24a true 1 [] 3;,
SSprod n_s14s false 0 [] 3;,
SSprod n_a14a true 0 [] 3;,
SSprod n_s3123s false 2 [0; 1] 2;,
SMemT n_preTU ((((EMemT n_sqrt2) *t (EMemT n_e)) *t (EMemT n_e)) /t ((((EUn D2T (ELit (2 # 1))) *t (EMemT n_MW)) *t (EMemT n_me)) *t (EMemT n_SW)));,
SMemT n_gL ((((EUn D2T (ELit (2 # 1))) *t (EMemT n_SW)) *t (EMemT n_SW)) -t (EUn D2T (ELit (1 # 1))));,
SMemT n_gR (((EUn D2T (ELit (2 # 1))) *t (EMemT n_SW)) *t (EMemT n_SW))).
(** eeAZ::set_masses: SM/eeAZ.cpp 61-72 *)
Definition eeAZ_set_masses : meth := mkMeth n_set_masses [(n_masse, PkT); (n_massW, PkT)]
(SMemT n_me (ELocT n_masse);,
SMemT n_MW (ELocT n_massW);,
SMemT n_MZ ((EMemT n_MW) /t (EMemT n_CW));,
SSetMass 0 (EMemT n_me);,
SSetMass 1 (EMemT n_me);,
SSetMass 2 (EUn I2T (EInt 0));,
SSetMass 3 (EMemT n_MZ);,
SPropMass n_prope (EMemT n_me);,
SMemT n_preTU ((((EMemT n_sqrt2) *t (EMemT n_e)) *t (EMemT n_e)) /t ((((EUn D2T (ELit (2 # 1))) *t (EMemT n_MW)) *t (EMemT n_me)) *t (EMemT n_SW)))).
(** eeAZ::set_momenta: SM/eeAZ.cpp 73-102 *)
Definition eeAZ_set_momenta : meth := mkMeth n_set_momenta [(n_mom1, PkMom); (n_mom2, PkMom); (n_mom3, PkMom); (n_mom4, PkMom)]
(SSetMomentum 0 n_mom1;,
SSetMomentum 1 n_mom2;,
SSetMomentum 2 n_mom3;,
SSetMomentum 3 n_mom4;,
SUpdate n_s12s;,
SUpdate n_a12a;,
SUpdate n_s23s;,
SUpdate n_a23a;,
SUpdate n_s13s;,
SUpdate n_a13a;,
SUpdate n_s34s;,
SUpdate n_a34a;,
SUpdate n_s24s;,
SUpdate n_a24a;,
SUpdate n_s14s;,
SUpdate n_a14a;,
SUpdate n_s3123s;,
SDeclT n_propTP 4;,
SDeclT n_propUP 4;,
(SFor n_j (EInt 0) (EBin (CmpI CLt) (ELocI n_j) (EInt 4)) (EBin (OpI IAdd) (ELocI n_j) (EInt 1))
(SArrT n_propTP (AVar n_j) ((EArrT n_mom1 (AVar n_j)) -t (EArrT n_mom3 (AVar n_j)));,
SArrT n_propUP (AVar n_j) ((EArrT n_mom1 (AVar n_j)) -t (EArrT n_mom4 (AVar n_j)))));,
SMemC n_pDenT (EDen n_prope n_propTP);,
SMemC n_pDenU (EDen n_prope n_propUP)).
(** eeAZ::amp: SM/eeAZ.cpp 107-154 *)
Definition eeAZ_amp : meth := mkMeth n_amp [(n_ds1, PkI); (n_ds2, PkI); (n_ds3, PkI); (n_ds4, PkI)]
(SLoc rC n_amplitude (EBin OpTTC (EUn I2T (EInt 0)) (EUn I2T (EInt 0)));,
SDecl rI n_ds4a;,
SDecl rI n_ds4b;,
SLoc rI n_nCombs (EInt 1);,
SLoc rT n_combFactor (EUn I2T (EInt 1));,
(SIf (EBin (CmpI CLt) (ELocI n_ds4) (EInt 0))
(SLoc rI n_ds4a (EUn NegI (EInt 1));,
SLoc rI n_ds4b (EUn NegI (EInt 1)))
(SIf (EBin (CmpI CGt) (ELocI n_ds4) (EInt 0))
(SLoc rI n_ds4a (EInt 1);,
SLoc rI n_ds4b (EInt 1))
(SLoc rI n_nCombs (EBin (OpI IMul) (ELocI n_nCombs) (EInt 2));,
SLoc rT n_combFactor ((ELocT n_combFactor) /t (EMemT n_sqrt2)))));,
(SFor n_i (EInt 0) (EBin (CmpI CLt) (ELocI n_i) (ELocI n_nCombs)) (EBin (OpI IAdd) (ELocI n_i) (EInt 1))
((SIf (EBin (CmpI CEq) (ELocI n_ds4) (EInt 0))
(SIf (EOr (EBin (CmpI CEq) (ELocI n_i) (EInt 0)) (EBin (CmpI CEq) (ELocI n_i) (EInt 1)))
(SLoc rI n_ds4a (EInt 1);,
SLoc rI n_ds4b (EUn NegI (EInt 1)))
(SLoc rI n_ds4a (EUn NegI (EInt 1));,
SLoc rI n_ds4b (EInt 1)))
(SSkip));,
(SIf (EBin (CmpI CGt) (ELocI n_ds3) (EInt 0))
(SSkip)
((SIf (EBin (CmpI CLt) (ELocI n_ds3) (EInt 0))
(SSkip)
(SSkip))))));,
SReturnC (ELocC n_amplitude)).
(** eeAZ::amp2: SM/eeAZ.cpp 157-171 *)
Definition eeAZ_amp2 : meth := mkMeth n_amp2 []
(SLoc rT n_amp2 (EUn I2T (EInt 0));,
SDecl rC n_M;,
(SFor n_j1 (EUn NegI (EInt 1)) (EBin (CmpI CLe) (ELocI n_j1) (EInt 1)) (EBin (OpI IAdd) (ELocI n_j1) (EInt 2))
(SFor n_j2 (EUn NegI (EInt 1)) (EBin (CmpI CLe) (ELocI n_j2) (EInt 1)) (EBin (OpI IAdd) (ELocI n_j2) (EInt 2))
(SFor n_j3 (EUn NegI (EInt 2)) (EBin (CmpI CLe) (ELocI n_j3) (EInt 2)) (EBin (OpI IAdd) (ELocI n_j3) (EInt 2))
(SFor n_j4 (EUn NegI (EInt 2)) (EBin (CmpI CLe) (ELocI n_j4) (EInt 2)) (EBin (OpI IAdd) (ELocI n_j4) (EInt 2))
(SLoc rC n_M (ECall n_amp [(AVar n_j1); (AVar n_j2); (AVar n_j3); (AVar n_j4)]);,
SLoc rT n_amp2 ((ELocT n_amp2) +t (EUn Pow2T (EUn AbsC (ELocC n_M)))))))));,
SReturnT ((ELocT n_amp2) /t (EUn D2T (ELit (4 # 1))))).
(** members: SM/include/eeAZ.h 26-36; initialisers: SM/eeAZ.cpp 32-33 *)
Definition eeAZ : cls := mkCls "eeAZ"
[(n_e, KT);
(n_me, KT);
(n_MW, KT);
(n_SW, KT);
(n_CW, KT);
(n_MZ, KT);
(n_p1, (KPart 0));
(n_p2, (KPart 1));
(n_p3, (KPart 2));
(n_p4, (KPart 3));
(n_prope, KProp);
(n_pDenT, KC);
(n_pDenU, KC);
(n_s12s, KSprod);
(n_a12a, KSprod);
(n_s23s, KSprod);
(n_a23a, KSprod);
(n_s13s, KSprod);
(n_a13a, KSprod);
(n_s34s, KSprod);
(n_a34a, KSprod);
(n_s24s, KSprod);
(n_a24a, KSprod);
(n_s14s, KSprod);
(n_a14a, KSprod);
(n_s3123s, KSprod);
(n_sqrt2, KT);
(n_preTU, KT);
(n_preh, KT);
(n_gL, KT);
(n_gR, KT)]
[n_echarge; n_masse; n_massW; n_sinW]
[(n_e, NT (ELocT n_echarge));
(n_me, NT (ELocT n_masse));
(n_MW, NT (ELocT n_massW));
(n_SW, NT (ELocT n_sinW));
(n_CW, NT (EUn SqrtT ((EUn D2T (ELit (1 # 1))) -t ((ELocT n_sinW) *t (ELocT n_sinW)))));
(n_MZ, NT ((ELocT n_massW) /t (EMemT n_CW)));
(n_prope, NProp (ELocT n_masse) (EUn I2T (EInt 0)))]
eeAZ_ctor
[eeAZ_set_masses; eeAZ_set_momenta; eeAZ_amp; eeAZ_amp2].

(** eeAh::eeAh: SM/eeAh.cpp 32-52 *)
Definition eeAh_ctor : stmt :=
(SLoc rT n_two (EUn I2T (EInt 2));,
SMemT n_sqrt2 (EUn SqrtT (ELocT n_two));,
SParticle 0 (EMemT n_me);,
SParticle 1 (EMemT n_me);,
SParticle 2 (EUn I2T (EInt 0));,
SParticle 3 (EMemT n_mh);,
SSprod n_s13s false 0 [] 2;,
SSprod n_a13a true 0 [] 2;,
SSprod n_s23s false 1 [] 2;,
SSprod n_a23a true 1 [] 2;,
SSprod n_s12s false 0 [] 1;,
SSprod n_a12a true 0 [] 1;,
SSprod n_s342a false 2 [3] 1;,
SSprod n_a342s true 2 [3] 1;,
SSprod n_s341a false 2 [3] 0;,
SSprod n_a341s true 2 [3] 0;,
SSprod n_s3243s false 2 [1; 3] 2;,
SSprod n_a3243a true 2 [1; 3] 2).
(** eeAh::set_masses: SM/eeAh.cpp 53-60 *)
Definition eeAh_set_masses : meth := mkMeth n_set_masses [(n_masse, PkT); (n_massh, PkT)]
(SMemT n_me (ELocT n_masse);,
SMemT n_mh (ELocT n_massh);,
SSetMass 0 (EMemT n_me);,
SSetMass 1 (EMemT n_me);,
SSetMass 3 (EMemT n_mh);,
SPropMass n_prop (EMemT n_me)).
(** eeAh::set_v: SM/eeAh.cpp 61-63 *)
Definition eeAh_set_v : meth := mkMeth n_set_v [(n_vev, PkT)]
(SMemT n_v (ELocT n_vev)).
(** eeAh::set_momenta: SM/eeAh.cpp 64-90 *)
Definition eeAh_set_momenta : meth := mkMeth n_set_momenta [(n_mom1, PkMom); (n_mom2, PkMom); (n_mom3, PkMom); (n_mom4, PkMom)]
(SSetMomentum 0 n_mom1;,
SSetMomentum 1 n_mom2;,
SSetMomentum 2 n_mom3;,
SSetMomentum 3 n_mom4;,
SUpdate n_s13s;,
SUpdate n_a13a;,
SUpdate n_s23s;,
SUpdate n_a23a;,
SUpdate n_s12s;,
SUpdate n_a12a;,
SUpdate n_s342a;,
SUpdate n_a342s;,
SUpdate n_s341a;,
SUpdate n_a341s;,
SUpdate n_s3243s;,
SUpdate n_a3243a;,
SDeclT n_propTP 4;,
SDeclT n_propUP 4;,
(SFor n_j (EInt 0) (EBin (CmpI CLt) (ELocI n_j) (EInt 4)) (EBin (OpI IAdd) (ELocI n_j) (EInt 1))
(SArrT n_propTP (AVar n_j) ((EArrT n_mom1 (AVar n_j)) -t (EArrT n_mom3 (AVar n_j)));,
SArrT n_propUP (AVar n_j) ((EArrT n_mom1 (AVar n_j)) -t (EArrT n_mom4 (AVar n_j)))));,
SMemC n_pDenT (EDen n_prop n_propTP);,
SMemC n_pDenU (EDen n_prop n_propUP)).
(** eeAh::amp: SM/eeAh.cpp 95-108 *)
Definition eeAh_amp : meth := mkMeth n_amp [(n_ds1, PkI); (n_ds2, PkI); (n_ds3, PkI)]
((SIf (EBin (CmpI CGt) (ELocI n_ds3) (EInt 0))
(SReturnC (((((((EMemT n_sqrt2) *t (EMemT n_e)) *t (EMemT n_me)) /t (EMemT n_v)) *tc (((((((EUn NegT (EMemT n_mh)) *t (EMemT n_mh)) *tc (EV n_s13s [(AVar n_ds1)])) *c (EV n_s23s [(AVar n_ds2)])) +c (((EMemT n_me) *tc (EV n_s13s [(AVar n_ds1)])) *c (EV n_s342a [(AVar n_ds2)]))) +c (((EMemT n_me) *tc (EV n_s23s [(AVar n_ds2)])) *c (EV n_s341a [(AVar n_ds1)]))) +c ((EV n_a12a [(AVar n_ds1); (AVar n_ds2)]) *c (EV n_s3243s [])))) /c (EMemC n_pDenT)) /c (EMemC n_pDenU)))
((SIf (EBin (CmpI CLt) (ELocI n_ds3) (EInt 0))
(SReturnC (((((((EMemT n_sqrt2) *t (EMemT n_e)) *t (EMemT n_me)) /t (EMemT n_v)) *tc (((((((EUn NegT (EMemT n_mh)) *t (EMemT n_mh)) *tc (EV n_a13a [(AVar n_ds1)])) *c (EV n_a23a [(AVar n_ds2)])) +c (((EMemT n_me) *tc (EV n_a13a [(AVar n_ds1)])) *c (EV n_a342s [(AVar n_ds2)]))) +c (((EMemT n_me) *tc (EV n_a23a [(AVar n_ds2)])) *c (EV n_a341s [(AVar n_ds1)]))) +c ((EV n_s12s [(AVar n_ds1); (AVar n_ds2)]) *c (EV n_a3243a [])))) /c (EMemC n_pDenT)) /c (EMemC n_pDenU)))
(SSkip))));,
SReturnC (EBin OpTTC (EUn I2T (EInt 0)) (EUn I2T (EInt 0)))).
(** eeAh::amp2: SM/eeAh.cpp 111-124 *)
Definition eeAh_amp2 : meth := mkMeth n_amp2 []
(SLoc rT n_amp2 (EUn I2T (EInt 0));,
SDecl rC n_M;,
(SFor n_j1 (EUn NegI (EInt 1)) (EBin (CmpI CLe) (ELocI n_j1) (EInt 1)) (EBin (OpI IAdd) (ELocI n_j1) (EInt 2))
(SFor n_j2 (EUn NegI (EInt 1)) (EBin (CmpI CLe) (ELocI n_j2) (EInt 1)) (EBin (OpI IAdd) (ELocI n_j2) (EInt 2))
(SFor n_j3 (EUn NegI (EInt 2)) (EBin (CmpI CLe) (ELocI n_j3) (EInt 2)) (EBin (OpI IAdd) (ELocI n_j3) (EInt 4))
(SLoc rC n_M (ECall n_amp [(AVar n_j1); (AVar n_j2); (AVar n_j3)]);,
SLoc rT n_amp2 ((ELocT n_amp2) +t (EUn Pow2T (EUn AbsC (ELocC n_M))))))));,
SReturnT ((ELocT n_amp2) /t (EUn D2T (ELit (4 # 1))))).
(** members: SM/include/eeAh.h 26-33; initialisers: SM/eeAh.cpp 32-33 *)
Definition eeAh : cls := mkCls "eeAh"
[(n_e, KT);
(n_me, KT);
(n_mh, KT);
(n_v, KT);
(n_p1, (KPart 0));
(n_p2, (KPart 1));
(n_p3, (KPart 2));
(n_p4, (KPart 3));
(n_prop, KProp);
(n_pDenT, KC);
(n_pDenU, KC);
(n_s13s, KSprod);
(n_a13a, KSprod);
(n_s23s, KSprod);
(n_a23a, KSprod);
(n_s12s, KSprod);
(n_a12a, KSprod);
(n_s342a, KSprod);
(n_a342s, KSprod);
(n_s341a, KSprod);
(n_a341s, KSprod);
(n_s3243s, KSprod);
(n_a3243a, KSprod);
(n_sqrt2, KT)]
[n_echarge; n_masse; n_massh; n_vev]
[(n_e, NT (ELocT n_echarge));
(n_me, NT (ELocT n_masse));
(n_mh, NT (ELocT n_massh));
(n_v, NT (ELocT n_vev));
(n_prop, NProp (ELocT n_masse) (EUn I2T (EInt 0)))]
eeAh_ctor
[eeAh_set_masses; eeAh_set_v; eeAh_set_momenta; eeAh_amp; eeAh_amp2].

(** eeWW::eeWW: SM/eeWW.cpp 32-66 *)
Definition eeWW_ctor : stmt :=
(SLoc rT n_two (EUn I2T (EInt 2));,
SMemT n_sqrt2 (EUn SqrtT (ELocT n_two));,
SMemT n_MZ ((EMemT n_MW) /t (EMemT n_CW));,
SPropNew n_propZ (EMemT n_MZ) (EMemT n_WZ);,
SPropNew n_proph (EMemT n_mh) (EMemT n_wh);,
SParticle 0 (EMemT n_me);,
SParticle 1 (EMemT n_me);,
SParticle 2 (EMemT n_MW);,
SParticle 3 (EMemT n_MW);,
SSprod n_s12s false 0 [] 1;,
SSprod n_a12a true 0 [] 1;,
SSprod n_s23s false 1 [] 2;,
SSprod n_a23a true 1 [] 2;,
SSprod n_s13s false 0 [] 2;,
SSprod n_a13a true 0 [] 2;,
SSprod n_s34s false 2 [] 3;,
SSprod n_a34a true 2 [] 3;,
SSprod n_s24s false 1 [] 3;,
SSprod n_a24a true 1 [] 3;,
SSprod n_s14s false 0 [] 3;,
SSprod n_a14a true 0 [] 3;,
SSprod n_s413a false 3 [0] 2;,
SSprod n_s231a false 1 [2] 0;,
SSprod n_s132a false 0 [2] 1;,
SMemT n_prene (((EMemT n_e) *t (EMemT n_e)) /t ((((EMemT n_MW) *t (EMemT n_MW)) *t (EMemT n_SW)) *t (EMemT n_SW)));,
SMemT n_preh ((((EMemT n_e) *t (EMemT n_e)) *t (EMemT n_me)) /t (((((EUn D2T (ELit (2 # 1))) *t (EMemT n_MW)) *t (EMemT n_MW)) *t (EMemT n_SW)) *t (EMemT n_SW)));,
SMemT n_preZ (((EMemT n_e) *t (EMemT n_e)) /t (((((EUn D2T (ELit (2 # 1))) *t (EMemT n_MW)) *t (EMemT n_MW)) *t (EMemT n_SW)) *t (EMemT n_SW)));,
SMemT n_gL ((((EUn D2T (ELit (2 # 1))) *t (EMemT n_SW)) *t (EMemT n_SW)) -t (EUn D2T (ELit (1 # 1))));,
SMemT n_gR (((EUn D2T (ELit (2 # 1))) *t (EMemT n_SW)) *t (EMemT n_SW))).
(** eeWW::set_masses: SM/eeWW.cpp 67-82 *)
Definition eeWW_set_masses : meth := mkMeth n_set_masses [(n_masse, PkT); (n_massh, PkT); (n_massW, PkT)]
(SMemT n_me (ELocT n_masse);,
SMemT n_mh (ELocT n_massh);,
SMemT n_MW (ELocT n_massW);,
SMemT n_MZ ((EMemT n_MW) /t (EMemT n_CW));,
SSetMass 0 (EMemT n_me);,
SSetMass 1 (EMemT n_me);,
SSetMass 2 (EMemT n_MW);,
SSetMass 3 (EMemT n_MW);,
SPropMass n_proph (EMemT n_mh);,
SPropMass n_propZ (EMemT n_MZ);,
SMemT n_prene (((EMemT n_e) *t (EMemT n_e)) /t ((((EMemT n_MW) *t (EMemT n_MW)) *t (EMemT n_SW)) *t (EMemT n_SW)));,
SMemT n_preh ((((EMemT n_e) *t (EMemT n_e)) *t (EMemT n_me)) /t (((((EUn D2T (ELit (2 # 1))) *t (EMemT n_MW)) *t (EMemT n_MW)) *t (EMemT n_SW)) *t (EMemT n_SW)));,
SMemT n_preZ (((EMemT n_e) *t (EMemT n_e)) /t (((((EUn D2T (ELit (2 # 1))) *t (EMemT n_MW)) *t (EMemT n_MW)) *t (EMemT n_SW)) *t (EMemT n_SW)))).
(** eeWW::set_momenta: SM/eeWW.cpp 83-118 *)
Definition eeWW_set_momenta : meth := mkMeth n_set_momenta [(n_mom1, PkMom); (n_mom2, PkMom); (n_mom3, PkMom); (n_mom4, PkMom)]
(SSetMomentum 0 n_mom1;,
SSetMomentum 1 n_mom2;,
SSetMomentum 2 n_mom3;,
SSetMomentum 3 n_mom4;,
SUpdate n_s12s;,
SUpdate n_a12a;,
SUpdate n_s23s;,
SUpdate n_a23a;,
SUpdate n_s13s;,
SUpdate n_a13a;,
SUpdate n_s34s;,
SUpdate n_a34a;,
SUpdate n_s24s;,
SUpdate n_a24a;,
SUpdate n_s14s;,
SUpdate n_a14a;,
SUpdate n_s413a;,
SUpdate n_s231a;,
SUpdate n_s132a;,
SDeclT n_propSP 4;,
SDeclT n_propTP 4;,
SDeclT n_propUP 4;,
(SFor n_j (EInt 0) (EBin (CmpI CLt) (ELocI n_j) (EInt 4)) (EBin (OpI IAdd) (ELocI n_j) (EInt 1))
(SArrT n_propSP (AVar n_j) ((EArrT n_mom1 (AVar n_j)) +t (EArrT n_mom2 (AVar n_j)));,
SArrT n_propTP (AVar n_j) ((EArrT n_mom1 (AVar n_j)) -t (EArrT n_mom3 (AVar n_j)));,
SArrT n_propUP (AVar n_j) ((EArrT n_mom1 (AVar n_j)) -t (EArrT n_mom4 (AVar n_j)))));,
SMemC n_pDenhS (EDen n_proph n_propSP);,
SMemC n_pDenneT (EDen n_propne n_propTP);,
SMemC n_pDenneU (EDen n_propne n_propUP);,
SMemC n_pDenZS (EDen n_propZ n_propSP);,
SMemC n_pDenAS (EDen n_propA n_propSP)).
(** eeWW::amp: SM/eeWW.cpp 123-187 *)
Definition eeWW_amp : meth := mkMeth n_amp [(n_ds1, PkI); (n_ds2, PkI); (n_ds3, PkI); (n_ds4, PkI)]
(SLoc rC n_amplitude (EBin OpTTC (EUn I2T (EInt 0)) (EUn I2T (EInt 0)));,
SDecl rI n_ds3a;,
SDecl rI n_ds3b;,
SDecl rI n_ds4a;,
SDecl rI n_ds4b;,
SLoc rT n_two (EUn I2T (EInt 2));,
SLoc rI n_nCombs (ENLoops [(AVar n_ds3); (AVar n_ds4)]);,
SLoc rT n_normFactor (ENorm [(AVar n_ds3); (AVar n_ds4)]);,
(SFor n_i (EInt 0) (EBin (CmpI CLt) (ELocI n_i) (ELocI n_nCombs)) (EBin (OpI IAdd) (ELocI n_i) (EInt 1))
(SSpins [(n_ds3, n_ds3a, n_ds3b); (n_ds4, n_ds4a, n_ds4b)] (AVar n_i);,
SLoc rC n_amplitude ((ELocC n_amplitude) +c ((((((ELocT n_normFactor) *t (EMemT n_preh)) *tc (EV n_s34s [(AVar n_ds3a); (AVar n_ds4a)])) *c (EV n_a34a [(AVar n_ds3b); (AVar n_ds4b)])) *c ((EV n_s12s [(AVar n_ds1); (AVar n_ds2)]) +c (EV n_a12a [(AVar n_ds1); (AVar n_ds2)]))) /c (EMemC n_pDenhS)));,
SLoc rC n_amplitude ((ELocC n_amplitude) +c ((((((EUn NegT (ELocT n_normFactor)) *t (EMemT n_prene)) *tc (EV n_s23s [(AVar n_ds2); (AVar n_ds3a)])) *c (EV n_a14a [(AVar n_ds1); (AVar n_ds4a)])) *c (((EMemT n_MW) *tc (EV n_a34a [(AVar n_ds3b); (AVar n_ds4b)])) +c (EV n_s413a [(AVar n_ds4b); (AVar n_ds3b)]))) /c (EMemC n_pDenneU)));,
SLoc rC n_amplitude ((ELocC n_amplitude) +c (((((((((EUn NegT (ELocT n_normFactor)) *t (EMemT n_e)) *t (EMemT n_e)) *t (ELocT n_two)) /t (EMemT n_MW)) *tc (((((EV n_a13a [(AVar n_ds1); (AVar n_ds3a)]) *c (EV n_s24s [(AVar n_ds2); (AVar n_ds4a)])) +c ((EV n_s13s [(AVar n_ds1); (AVar n_ds3a)]) *c (EV n_a24a [(AVar n_ds2); (AVar n_ds4a)]))) +c ((EV n_a14a [(AVar n_ds1); (AVar n_ds4a)]) *c (EV n_s23s [(AVar n_ds2); (AVar n_ds3a)]))) +c ((EV n_s14s [(AVar n_ds1); (AVar n_ds4a)]) *c (EV n_a23a [(AVar n_ds2); (AVar n_ds3a)])))) *c ((EV n_s34s [(AVar n_ds3b); (AVar n_ds4b)]) +c (EV n_a34a [(AVar n_ds3b); (AVar n_ds4b)]))) /c (EMemC n_pDenAS)) -c ((((((((ELocT n_normFactor) *t (EMemT n_e)) *t (EMemT n_e)) *t (ELocT n_two)) /t (EMemT n_MW)) /t (EMemT n_MW)) *tc (((EV n_s34s [(AVar n_ds3a); (AVar n_ds4a)]) *c (EV n_a34a [(AVar n_ds3b); (AVar n_ds4b)])) *c ((EV n_s231a [(AVar n_ds2); (AVar n_ds1)]) +c (EV n_s132a [(AVar n_ds1); (AVar n_ds2)])))) /c (EMemC n_pDenAS))));,
SLoc rC n_amplitude ((ELocC n_amplitude) +c ((((EUn NegT (ELocT n_normFactor)) *t (EMemT n_preZ)) *tc ((((((((EMemT n_gL) -t (EMemT n_gR)) *t (EMemT n_me)) *tc (EV n_s34s [(AVar n_ds3a); (AVar n_ds4a)])) *c (EV n_a34a [(AVar n_ds3b); (AVar n_ds4b)])) *c ((EV n_s12s [(AVar n_ds1); (AVar n_ds2)]) -c (EV n_a12a [(AVar n_ds1); (AVar n_ds2)]))) -c ((((ELocT n_two) *tc (EV n_s34s [(AVar n_ds3a); (AVar n_ds4a)])) *c (EV n_a34a [(AVar n_ds3b); (AVar n_ds4b)])) *c (((EMemT n_gL) *tc (EV n_s231a [(AVar n_ds2); (AVar n_ds1)])) +c ((EMemT n_gR) *tc (EV n_s132a [(AVar n_ds1); (AVar n_ds2)]))))) -c ((((ELocT n_two) *t (EMemT n_MW)) *tc ((EV n_s34s [(AVar n_ds3a); (AVar n_ds4a)]) +c (EV n_a34a [(AVar n_ds3a); (AVar n_ds4a)]))) *c (((EMemT n_gL) *tc (((EV n_s23s [(AVar n_ds2); (AVar n_ds3b)]) *c (EV n_a14a [(AVar n_ds1); (AVar n_ds4b)])) +c ((EV n_s24s [(AVar n_ds2); (AVar n_ds4b)]) *c (EV n_a13a [(AVar n_ds1); (AVar n_ds3b)])))) +c ((EMemT n_gR) *tc (((EV n_s13s [(AVar n_ds1); (AVar n_ds3b)]) *c (EV n_a24a [(AVar n_ds2); (AVar n_ds4b)])) +c ((EV n_s14s [(AVar n_ds1); (AVar n_ds4b)]) *c (EV n_a23a [(AVar n_ds2); (AVar n_ds3b)])))))))) /c (EMemC n_pDenZS)))));,
SReturnC (ELocC n_amplitude)).
(** eeWW::amp2: SM/eeWW.cpp 190-204 *)
Definition eeWW_amp2 : meth := mkMeth n_amp2 []
(SLoc rT n_amp2 (EUn I2T (EInt 0));,
SDecl rC n_M;,
(SFor n_j1 (EUn NegI (EInt 1)) (EBin (CmpI CLe) (ELocI n_j1) (EInt 1)) (EBin (OpI IAdd) (ELocI n_j1) (EInt 2))
(SFor n_j2 (EUn NegI (EInt 1)) (EBin (CmpI CLe) (ELocI n_j2) (EInt 1)) (EBin (OpI IAdd) (ELocI n_j2) (EInt 2))
(SFor n_j3 (EUn NegI (EInt 2)) (EBin (CmpI CLe) (ELocI n_j3) (EInt 2)) (EBin (OpI IAdd) (ELocI n_j3) (EInt 2))
(SFor n_j4 (EUn NegI (EInt 2)) (EBin (CmpI CLe) (ELocI n_j4) (EInt 2)) (EBin (OpI IAdd) (ELocI n_j4) (EInt 2))
(SLoc rC n_M (ECall n_amp [(AVar n_j1); (AVar n_j2); (AVar n_j3); (AVar n_j4)]);,
SLoc rT n_amp2 ((ELocT n_amp2) +t (EUn Pow2T (EUn AbsC (ELocC n_M)))))))));,
SReturnT ((ELocT n_amp2) /t (EUn D2T (ELit (4 # 1))))).
(** members: SM/include/eeWW.h 26-36; initialisers: SM/eeWW.cpp 32-33 *)
Definition eeWW : cls := mkCls "eeWW"
[(n_e, KT);
(n_me, KT);
(n_mh, KT);
(n_wh, KT);
(n_MW, KT);
(n_SW, KT);
(n_CW, KT);
(n_MZ, KT);
(n_WZ, KT);
(n_p1, (KPart 0));
(n_p2, (KPart 1));
(n_p3, (KPart 2));
(n_p4, (KPart 3));
(n_proph, KProp);
(n_propne, KProp);
(n_propZ, KProp);
(n_propA, KProp);
(n_pDenhS, KC);
(n_pDenneT, KC);
(n_pDenneU, KC);
(n_pDenZS, KC);
(n_pDenAS, KC);
(n_s12s, KSprod);
(n_a12a, KSprod);
(n_s23s, KSprod);
(n_a23a, KSprod);
(n_s13s, KSprod);
(n_a13a, KSprod);
(n_s34s, KSprod);
(n_a34a, KSprod);
(n_s24s, KSprod);
(n_a24a, KSprod);
(n_s14s, KSprod);
(n_a14a, KSprod);
(n_s413a, KSprod);
(n_s231a, KSprod);
(n_s132a, KSprod);
(n_sqrt2, KT);
(n_prene, KT);
(n_preh, KT);
(n_preZ, KT);
(n_gL, KT);
(n_gR, KT)]
[n_echarge; n_masse; n_massh; n_widthh; n_massW; n_sinW; n_widthZ]
[(n_e, NT (ELocT n_echarge));
(n_me, NT (ELocT n_masse));
(n_mh, NT (ELocT n_massh));
(n_wh, NT (ELocT n_widthh));
(n_MW, NT (ELocT n_massW));
(n_SW, NT (ELocT n_sinW));
(n_CW, NT (EUn SqrtT ((EUn D2T (ELit (1 # 1))) -t ((ELocT n_sinW) *t (ELocT n_sinW)))));
(n_MZ, NT ((ELocT n_massW) /t (EMemT n_CW)));
(n_WZ, NT (ELocT n_widthZ));
(n_propne, NProp (EUn I2T (EInt 0)) (EUn I2T (EInt 0)));
(n_propA, NProp (EUn I2T (EInt 0)) (EUn I2T (EInt 0)))]
eeWW_ctor
[eeWW_set_masses; eeWW_set_momenta; eeWW_amp; eeWW_amp2].

(** eeZZ::eeZZ: SM/eeZZ.cpp 32-63 *)
Definition eeZZ_ctor : stmt :=
(SLoc rT n_two (EUn I2T (EInt 2));,
SMemT n_sqrt2 (EUn SqrtT (ELocT n_two));,
SMemT n_MZ ((EMemT n_MW) /t (EMemT n_CW));,
SPropNew n_proph (EMemT n_mh) (EMemT n_wh);,
SParticle 0 (EMemT n_me);,
SParticle 1 (EMemT n_me);,
SParticle 2 (EMemT n_MZ);,
SParticle 3 (EMemT n_MZ);,
SSprod n_s12s false 0 [] 1;,
SSprod n_a12a true 0 [] 1;,
SSprod n_s23s false 1 [] 2;,
SSprod n_a23a true 1 [] 2;,
SSprod n_s13s false 0 [] 2;,
SSprod n_a13a true 0 [] 2;,
SSprod n_s34s false 2 [] 3;,
SSprod n_a34a true 2 [] 3;,
SSprod n_s24s false 1 [] 3;,
SSprod n_a24a true 1 [] 3;,
SSprod n_s14s false 0 [] 3;,
SSprod n_a14a true 0 [] 3;,
SSprod n_s314a false 2 [0] 3;,
SSprod n_s413a false 3 [0] 2;,
SMemT n_preTU (((EMemT n_e) *t (EMemT n_e)) /t (((((EUn D2T (ELit (2 # 1))) *t (EMemT n_MW)) *t (EMemT n_MW)) *t (EMemT n_SW)) *t (EMemT n_SW)));,
SMemT n_gL ((((EUn D2T (ELit (2 # 1))) *t (EMemT n_SW)) *t (EMemT n_SW)) -t (EUn D2T (ELit (1 # 1))));,
SMemT n_gR (((EUn D2T (ELit (2 # 1))) *t (EMemT n_SW)) *t (EMemT n_SW));,
SMemT n_preh ((((EMemT n_e) *t (EMemT n_e)) *t (EMemT n_me)) /t (((((EUn D2T (ELit (2 # 1))) *t (EMemT n_MW)) *t (EMemT n_MW)) *t (EMemT n_SW)) *t (EMemT n_SW)))).
(** eeZZ::set_masses: SM/eeZZ.cpp 64-78 *)
Definition eeZZ_set_masses : meth := mkMeth n_set_masses [(n_masse, PkT); (n_massh, PkT); (n_massW, PkT)]
(SMemT n_me (ELocT n_masse);,
SMemT n_mh (ELocT n_massh);,
SMemT n_MW (ELocT n_massW);,
SMemT n_MZ ((EMemT n_MW) /t (EMemT n_CW));,
SSetMass 0 (EMemT n_me);,
SSetMass 1 (EMemT n_me);,
SSetMass 2 (EMemT n_MZ);,
SSetMass 3 (EMemT n_MZ);,
SPropMass n_prope (EMemT n_me);,
SPropMass n_proph (EMemT n_mh);,
SMemT n_preTU (((EMemT n_e) *t (EMemT n_e)) /t (((((EUn D2T (ELit (2 # 1))) *t (EMemT n_MW)) *t (EMemT n_MW)) *t (EMemT n_SW)) *t (EMemT n_SW)));,
SMemT n_preh ((((EMemT n_e) *t (EMemT n_e)) *t (EMemT n_me)) /t (((((EUn D2T (ELit (2 # 1))) *t (EMemT n_MW)) *t (EMemT n_MW)) *t (EMemT n_SW)) *t (EMemT n_SW)))).
(** eeZZ::set_momenta: SM/eeZZ.cpp 79-111 *)
Definition eeZZ_set_momenta : meth := mkMeth n_set_momenta [(n_mom1, PkMom); (n_mom2, PkMom); (n_mom3, PkMom); (n_mom4, PkMom)]
(SSetMomentum 0 n_mom1;,
SSetMomentum 1 n_mom2;,
SSetMomentum 2 n_mom3;,
SSetMomentum 3 n_mom4;,
SUpdate n_s12s;,
SUpdate n_a12a;,
SUpdate n_s23s;,
SUpdate n_a23a;,
SUpdate n_s13s;,
SUpdate n_a13a;,
SUpdate n_s34s;,
SUpdate n_a34a;,
SUpdate n_s24s;,
SUpdate n_a24a;,
SUpdate n_s14s;,
SUpdate n_a14a;,
SUpdate n_s314a;,
SUpdate n_s413a;,
SDeclT n_propSP 4;,
SDeclT n_propTP 4;,
SDeclT n_propUP 4;,
(SFor n_j (EInt 0) (EBin (CmpI CLt) (ELocI n_j) (EInt 4)) (EBin (OpI IAdd) (ELocI n_j) (EInt 1))
(SArrT n_propSP (AVar n_j) ((EArrT n_mom1 (AVar n_j)) +t (EArrT n_mom2 (AVar n_j)));,
SArrT n_propTP (AVar n_j) ((EArrT n_mom1 (AVar n_j)) -t (EArrT n_mom3 (AVar n_j)));,
SArrT n_propUP (AVar n_j) ((EArrT n_mom1 (AVar n_j)) -t (EArrT n_mom4 (AVar n_j)))));,
SMemC n_pDenS (EDen n_proph n_propSP);,
SMemC n_pDenT (EDen n_prope n_propTP);,
SMemC n_pDenU (EDen n_prope n_propUP)).
(** eeZZ::amp: SM/eeZZ.cpp 116-166 *)
Definition eeZZ_amp : meth := mkMeth n_amp [(n_ds1, PkI); (n_ds2, PkI); (n_ds3, PkI); (n_ds4, PkI)]
(SLoc rC n_amplitude (EBin OpTTC (EUn I2T (EInt 0)) (EUn I2T (EInt 0)));,
SDecl rI n_ds3a;,
SDecl rI n_ds3b;,
SDecl rI n_ds4a;,
SDecl rI n_ds4b;,
SLoc rI n_nCombs (ENLoops [(AVar n_ds3); (AVar n_ds4)]);,
SLoc rT n_normFactor (ENorm [(AVar n_ds3); (AVar n_ds4)]);,
(SFor n_i (EInt 0) (EBin (CmpI CLt) (ELocI n_i) (ELocI n_nCombs)) (EBin (OpI IAdd) (ELocI n_i) (EInt 1))
(SSpins [(n_ds3, n_ds3a, n_ds3b); (n_ds4, n_ds4a, n_ds4b)] (AVar n_i);,
SLoc rC n_amplitude ((ELocC n_amplitude) +c ((((((ELocT n_normFactor) *t (EMemT n_preh)) *tc (EV n_s34s [(AVar n_ds3a); (AVar n_ds4a)])) *c (EV n_a34a [(AVar n_ds3b); (AVar n_ds4b)])) *c ((EV n_s12s [(AVar n_ds1); (AVar n_ds2)]) +c (EV n_a12a [(AVar n_ds1); (AVar n_ds2)]))) /c (EMemC n_pDenS)));,
SLoc rC n_amplitude ((ELocC n_amplitude) +c ((((((((((ELocT n_normFactor) *t (EMemT n_preTU)) *t (EMemT n_gL)) *t (EMemT n_gL)) *tc (EV n_s24s [(AVar n_ds2); (AVar n_ds4a)])) *c (EV n_a13a [(AVar n_ds1); (AVar n_ds3a)])) *c (((EMemT n_MZ) *tc (EV n_a34a [(AVar n_ds3b); (AVar n_ds4b)])) -c (EV n_s314a [(AVar n_ds3b); (AVar n_ds4b)]))) /c (EMemC n_pDenT)) +c ((((((((ELocT n_normFactor) *t (EMemT n_preTU)) *t (EMemT n_gR)) *t (EMemT n_gR)) *tc (EV n_a24a [(AVar n_ds2); (AVar n_ds4a)])) *c (EV n_s13s [(AVar n_ds1); (AVar n_ds3a)])) *c (((EMemT n_MZ) *tc (EV n_s34s [(AVar n_ds3b); (AVar n_ds4b)])) -c (EV n_s413a [(AVar n_ds4b); (AVar n_ds3b)]))) /c (EMemC n_pDenT))) -c (((((((ELocT n_normFactor) *t (EMemT n_preTU)) *t (EMemT n_gL)) *t (EMemT n_gR)) *t (EMemT n_me)) *tc ((((EV n_s13s [(AVar n_ds1); (AVar n_ds3a)]) *c (EV n_s24s [(AVar n_ds2); (AVar n_ds4a)])) *c (EV n_a34a [(AVar n_ds3b); (AVar n_ds4b)])) +c (((EV n_a13a [(AVar n_ds1); (AVar n_ds3a)]) *c (EV n_a24a [(AVar n_ds2); (AVar n_ds4a)])) *c (EV n_s34s [(AVar n_ds3b); (AVar n_ds4b)])))) /c (EMemC n_pDenT))));,
SLoc rC n_amplitude ((ELocC n_amplitude) +c ((((((((((EUn NegT (ELocT n_normFactor)) *t (EMemT n_preTU)) *t (EMemT n_gL)) *t (EMemT n_gL)) *tc (EV n_s23s [(AVar n_ds2); (AVar n_ds3a)])) *c (EV n_a14a [(AVar n_ds1); (AVar n_ds4a)])) *c (((EMemT n_MZ) *tc (EV n_a34a [(AVar n_ds3b); (AVar n_ds4b)])) +c (EV n_s413a [(AVar n_ds4b); (AVar n_ds3b)]))) /c (EMemC n_pDenU)) -c ((((((((ELocT n_normFactor) *t (EMemT n_preTU)) *t (EMemT n_gR)) *t (EMemT n_gR)) *tc (EV n_s14s [(AVar n_ds1); (AVar n_ds4a)])) *c (EV n_a23a [(AVar n_ds2); (AVar n_ds3a)])) *c (((EMemT n_MZ) *tc (EV n_s34s [(AVar n_ds3b); (AVar n_ds4b)])) +c (EV n_s314a [(AVar n_ds3b); (AVar n_ds4b)]))) /c (EMemC n_pDenU))) +c (((((((ELocT n_normFactor) *t (EMemT n_preTU)) *t (EMemT n_gL)) *t (EMemT n_gR)) *t (EMemT n_me)) *tc ((((EV n_s14s [(AVar n_ds1); (AVar n_ds4a)]) *c (EV n_s23s [(AVar n_ds2); (AVar n_ds3a)])) *c (EV n_a34a [(AVar n_ds3b); (AVar n_ds4b)])) +c (((EV n_a14a [(AVar n_ds1); (AVar n_ds4a)]) *c (EV n_a23a [(AVar n_ds2); (AVar n_ds3a)])) *c (EV n_s34s [(AVar n_ds3b); (AVar n_ds4b)])))) /c (EMemC n_pDenU))))));,
SReturnC (ELocC n_amplitude)).
(** eeZZ::amp2: SM/eeZZ.cpp 169-184 *)
Definition eeZZ_amp2 : meth := mkMeth n_amp2 []
(SLoc rT n_amp2 (EUn I2T (EInt 0));,
SDecl rC n_M;,
(SFor n_j1 (EUn NegI (EInt 1)) (EBin (CmpI CLe) (ELocI n_j1) (EInt 1)) (EBin (OpI IAdd) (ELocI n_j1) (EInt 2))
(SFor n_j2 (EUn NegI (EInt 1)) (EBin (CmpI CLe) (ELocI n_j2) (EInt 1)) (EBin (OpI IAdd) (ELocI n_j2) (EInt 2))
(SFor n_j3 (EUn NegI (EInt 2)) (EBin (CmpI CLe) (ELocI n_j3) (EInt 2)) (EBin (OpI IAdd) (ELocI n_j3) (EInt 2))
(SFor n_j4 (EUn NegI (EInt 2)) (EBin (CmpI CLe) (ELocI n_j4) (EInt 2)) (EBin (OpI IAdd) (ELocI n_j4) (EInt 2))
(SLoc rC n_M (ECall n_amp [(AVar n_j1); (AVar n_j2); (AVar n_j3); (AVar n_j4)]);,
SLoc rT n_amp2 ((ELocT n_amp2) +t (EUn Pow2T (EUn AbsC (ELocC n_M)))))))));,
SReturnT ((ELocT n_amp2) /t (EUn D2T (ELit (8 # 1))))).
(** members: SM/include/eeZZ.h 26-36; initialisers: SM/eeZZ.cpp 32-33 *)
Definition eeZZ : cls := mkCls "eeZZ"
[(n_e, KT);
(n_me, KT);
(n_mh, KT);
(n_wh, KT);
(n_MW, KT);
(n_SW, KT);
(n_CW, KT);
(n_MZ, KT);
(n_WZ, KT);
(n_p1, (KPart 0));
(n_p2, (KPart 1));
(n_p3, (KPart 2));
(n_p4, (KPart 3));
(n_proph, KProp);
(n_prope, KProp);
(n_pDenS, KC);
(n_pDenT, KC);
(n_pDenU, KC);
(n_s12s, KSprod);
(n_a12a, KSprod);
(n_s23s, KSprod);
(n_a23a, KSprod);
(n_s13s, KSprod);
(n_a13a, KSprod);
(n_s34s, KSprod);
(n_a34a, KSprod);
(n_s24s, KSprod);
(n_a24a, KSprod);
(n_s14s, KSprod);
(n_a14a, KSprod);
(n_s314a, KSprod);
(n_s413a, KSprod);
(n_sqrt2, KT);
(n_preTU, KT);
(n_preh, KT);
(n_gL, KT);
(n_gR, KT)]
[n_echarge; n_masse; n_massh; n_widthh; n_massW; n_sinW; n_widthZ]
[(n_e, NT (ELocT n_echarge));
(n_me, NT (ELocT n_masse));
(n_mh, NT (ELocT n_massh));
(n_wh, NT (ELocT n_widthh));
(n_MW, NT (ELocT n_massW));
(n_SW, NT (ELocT n_sinW));
(n_CW, NT (EUn SqrtT ((EUn D2T (ELit (1 # 1))) -t ((ELocT n_sinW) *t (ELocT n_sinW)))));
(n_MZ, NT ((ELocT n_massW) /t (EMemT n_CW)));
(n_WZ, NT (ELocT n_widthZ));
(n_prope, NProp (ELocT n_masse) (EUn I2T (EInt 0)))]
eeZZ_ctor
[eeZZ_set_masses; eeZZ_set_momenta; eeZZ_amp; eeZZ_amp2].

Definition SM05_classes : list cls := [dnnd; dsds; eAAe; eAeh; eWWe; eZZe; eZeh; eeAA; eeAZ; eeAh; eeWW; eeZZ].
