(** Generated by tools/translate.py from SM/udud.cpp ... SM/uuZZ.cpp.  Do not edit. *)
From Coq Require Import QArith String.
From Verif Require Import Base Scalar Particle Sproduct Lang SMSyntax SMNames.
Local Open Scope sm_scope.
Local Open Scope string_scope.

(** udud::udud: SM/udud.cpp 32-61 *)
Definition udud_ctor : stmt :=
(SMemT n_MZ ((EMemT n_MW) /t (EMemT n_CW));,
SPropMass n_propZ (EMemT n_MZ);,
SMemT n_preh (((((EMemT n_e) *t (EMemT n_e)) *t (EMemT n_mu)) *t (EMemT n_md)) /t (((((EUn D2T (ELit (4 # 1))) *t (EMemT n_MW)) *t (EMemT n_MW)) *t (EMemT n_SW)) *t (EMemT n_SW)));,
SMemT n_gLu ((EUn D2T (ELit (1 # 1))) -t (((EUn D2T ((ELit (4 # 1)) /d (ELit (3 # 1)))) *t (EMemT n_SW)) *t (EMemT n_SW)));,
SMemT n_gRu (((EUn D2T ((EUn NegD (ELit (4 # 1))) /d (ELit (3 # 1)))) *t (EMemT n_SW)) *t (EMemT n_SW));,
SMemT n_gLd ((EUn D2T (EUn NegD (ELit (1 # 1)))) +t (((EUn D2T ((ELit (2 # 1)) /d (ELit (3 # 1)))) *t (EMemT n_SW)) *t (EMemT n_SW)));,
SMemT n_gRd (((EUn D2T ((ELit (2 # 1)) /d (ELit (3 # 1)))) *t (EMemT n_SW)) *t (EMemT n_SW));,
SMemT n_preZ (((EMemT n_e) *t (EMemT n_e)) /t (((((EUn D2T (ELit (4 # 1))) *t (EMemT n_CW)) *t (EMemT n_CW)) *t (EMemT n_SW)) *t (EMemT n_SW)));,
SMemT n_preZ0 (((((((EMemT n_preZ) *t ((EMemT n_gLu) -t (EMemT n_gRu))) *t ((EMemT n_gLd) -t (EMemT n_gRd))) *t (EMemT n_mu)) *t (EMemT n_md)) /t (EMemT n_MZ)) /t (EMemT n_MZ));,
SMemT n_preW (((EMemT n_e) *t (EMemT n_e)) /t (((((EUn D2T (ELit (2 # 1))) *t (EMemT n_MW)) *t (EMemT n_MW)) *t (EMemT n_SW)) *t (EMemT n_SW)))).
(** udud::set_masses: SM/udud.cpp 62-78 *)
Definition udud_set_masses : meth := mkMeth n_set_masses [(n_massu, PkT); (n_massd, PkT); (n_massh, PkT); (n_massW, PkT)]
(SMemT n_mu (ELocT n_massu);,
SMemT n_md (ELocT n_massd);,
SMemT n_mh (ELocT n_massh);,
SPropMass n_proph (EMemT n_mh);,
SMemT n_MW (ELocT n_massW);,
SPropMass n_propW (EMemT n_MW);,
SMemT n_MZ ((EMemT n_MW) /t (EMemT n_CW));,
SPropMass n_propZ (EMemT n_MZ);,
SSetMass 0 (EMemT n_mu);,
SSetMass 1 (EMemT n_md);,
SSetMass 2 (EMemT n_mu);,
SSetMass 3 (EMemT n_md);,
SMemT n_preh (((((EMemT n_e) *t (EMemT n_e)) *t (EMemT n_mu)) *t (EMemT n_md)) /t (((((EUn I2T (EInt 4)) *t (EMemT n_MW)) *t (EMemT n_MW)) *t (EMemT n_SW)) *t (EMemT n_SW)));,
SMemT n_preZ0 (((((((EMemT n_preZ) *t ((EMemT n_gLu) -t (EMemT n_gRu))) *t ((EMemT n_gLd) -t (EMemT n_gRd))) *t (EMemT n_mu)) *t (EMemT n_md)) /t (EMemT n_MZ)) /t (EMemT n_MZ));,
SMemT n_preW (((EMemT n_e) *t (EMemT n_e)) /t (((((EUn D2T (ELit (2 # 1))) *t (EMemT n_MW)) *t (EMemT n_MW)) *t (EMemT n_SW)) *t (EMemT n_SW)))).
(** udud::set_momenta: SM/udud.cpp 79-107 *)
Definition udud_set_momenta : meth := mkMeth n_set_momenta [(n_mom1, PkMom); (n_mom2, PkMom); (n_mom3, PkMom); (n_mom4, PkMom)]
(SSetMomentum 0 n_mom1;,
SSetMomentum 1 n_mom2;,
SSetMomentum 2 n_mom3;,
SSetMomentum 3 n_mom4;,
SUpdate n_a13a;,
SUpdate n_s13s;,
SUpdate n_a14a;,
SUpdate n_s14s;,
SUpdate n_a23a;,
SUpdate n_s23s;,
SUpdate n_a24a;,
SUpdate n_s24s;,
SUpdate n_s12s;,
SUpdate n_a12a;,
SUpdate n_s34s;,
SUpdate n_a34a;,
SDeclT n_propPT 4;,
SDeclT n_propPU 4;,
(SFor n_j (EInt 0) (EBin (CmpI CLt) (ELocI n_j) (EInt 4)) (EBin (OpI IAdd) (ELocI n_j) (EInt 1))
(SArrT n_propPT (AVar n_j) ((EArrT n_mom1 (AVar n_j)) -t (EArrT n_mom3 (AVar n_j)));,
SArrT n_propPU (AVar n_j) ((EArrT n_mom1 (AVar n_j)) -t (EArrT n_mom4 (AVar n_j)))));,
SMemC n_pDenTAG (EDen n_propAG n_propPT);,
SMemC n_pDenTh (EDen n_proph n_propPT);,
SMemC n_pDenTZ (EDen n_propZ n_propPT);,
SMemC n_pDenUW (EDen n_propW n_propPU)).
(** udud::amp_gluon: SM/udud.cpp 115-133 *)
Definition udud_amp_gluon : meth := mkMeth n_amp_gluon [(n_ds1, PkI); (n_ds2, PkI); (n_ds3, PkI); (n_ds4, PkI)]
(SLoc rT n_two (EUn I2T (EInt 2));,
SLoc rC n_amplitude (EBin OpTTC (EUn I2T (EInt 0)) (EUn I2T (EInt 0)));,
SLoc rC n_amplitude (((((EUn NegT (ELocT n_two)) *t (EMemT n_gs)) *t (EMemT n_gs)) *tc (((((EV n_a14a [(AVar n_ds1); (AVar n_ds4)]) *c (EV n_s23s [(AVar n_ds2); (AVar n_ds3)])) +c ((EV n_a12a [(AVar n_ds1); (AVar n_ds2)]) *c (EV n_s34s [(AVar n_ds3); (AVar n_ds4)]))) +c ((EV n_s14s [(AVar n_ds1); (AVar n_ds4)]) *c (EV n_a23a [(AVar n_ds2); (AVar n_ds3)]))) +c ((EV n_s12s [(AVar n_ds1); (AVar n_ds2)]) *c (EV n_a34a [(AVar n_ds3); (AVar n_ds4)])))) /c (EMemC n_pDenTAG));,
SReturnC (ELocC n_amplitude)).
(** udud::amp_rest: SM/udud.cpp 134-190 *)
Definition udud_amp_rest : meth := mkMeth n_amp_rest [(n_ds1, PkI); (n_ds2, PkI); (n_ds3, PkI); (n_ds4, PkI)]
(SLoc rT n_two (EUn I2T (EInt 2));,
SLoc rC n_amplitude (EBin OpTTC (EUn I2T (EInt 0)) (EUn I2T (EInt 0)));,
SLoc rC n_amplitude (((((((ELocT n_two) *t (EMemT n_e)) *t (EMemT n_e)) *t (EUn D2T (ELit (2 # 1)))) /t (EUn D2T (ELit (9 # 1)))) *tc (((((EV n_a14a [(AVar n_ds1); (AVar n_ds4)]) *c (EV n_s23s [(AVar n_ds2); (AVar n_ds3)])) +c ((EV n_a12a [(AVar n_ds1); (AVar n_ds2)]) *c (EV n_s34s [(AVar n_ds3); (AVar n_ds4)]))) +c ((EV n_s14s [(AVar n_ds1); (AVar n_ds4)]) *c (EV n_a23a [(AVar n_ds2); (AVar n_ds3)]))) +c ((EV n_s12s [(AVar n_ds1); (AVar n_ds2)]) *c (EV n_a34a [(AVar n_ds3); (AVar n_ds4)])))) /c (EMemC n_pDenTAG));,
SLoc rC n_amplitude ((ELocC n_amplitude) +c ((((EUn NegT (EMemT n_preh)) *tc ((EV n_s13s [(AVar n_ds1); (AVar n_ds3)]) -c (EV n_a13a [(AVar n_ds1); (AVar n_ds3)]))) *c ((EV n_s24s [(AVar n_ds2); (AVar n_ds4)]) -c (EV n_a24a [(AVar n_ds2); (AVar n_ds4)]))) /c (EMemC n_pDenTh)));,
SLoc rC n_amplitude ((ELocC n_amplitude) +c (((((EMemT n_preZ0) *tc ((EV n_a13a [(AVar n_ds1); (AVar n_ds3)]) +c (EV n_s13s [(AVar n_ds1); (AVar n_ds3)]))) *c ((EV n_a24a [(AVar n_ds2); (AVar n_ds4)]) +c (EV n_s24s [(AVar n_ds2); (AVar n_ds4)]))) /c (EMemC n_pDenTZ)) -c ((((ELocT n_two) *t (EMemT n_preZ)) *tc (((((((EMemT n_gLu) *t (EMemT n_gLd)) *tc (EV n_s34s [(AVar n_ds3); (AVar n_ds4)])) *c (EV n_a12a [(AVar n_ds1); (AVar n_ds2)])) +c ((((EMemT n_gLd) *t (EMemT n_gRu)) *tc (EV n_s14s [(AVar n_ds1); (AVar n_ds4)])) *c (EV n_a23a [(AVar n_ds2); (AVar n_ds3)]))) +c ((((EMemT n_gLu) *t (EMemT n_gRd)) *tc (EV n_s23s [(AVar n_ds2); (AVar n_ds3)])) *c (EV n_a14a [(AVar n_ds1); (AVar n_ds4)]))) +c ((((EMemT n_gRu) *t (EMemT n_gRd)) *tc (EV n_s12s [(AVar n_ds1); (AVar n_ds2)])) *c (EV n_a34a [(AVar n_ds3); (AVar n_ds4)])))) /c (EMemC n_pDenTZ))));,
SReturnC (ELocC n_amplitude)).
(** udud::amp_W: SM/udud.cpp 193-208 *)
Definition udud_amp_W : meth := mkMeth n_amp_W [(n_ds1, PkI); (n_ds2, PkI); (n_ds3, PkI); (n_ds4, PkI)]
(SReturnC (((EUn NegT (EMemT n_preW)) *tc ((((((EUn D2T (ELit (2 # 1))) *t (EMemT n_MW)) *t (EMemT n_MW)) *tc (EV n_a12a [(AVar n_ds1); (AVar n_ds2)])) *c (EV n_s34s [(AVar n_ds3); (AVar n_ds4)])) +c ((((EMemT n_mu) *tc (EV n_s14s [(AVar n_ds1); (AVar n_ds4)])) +c ((EMemT n_md) *tc (EV n_a14a [(AVar n_ds1); (AVar n_ds4)]))) *c (((EMemT n_mu) *tc (EV n_a23a [(AVar n_ds2); (AVar n_ds3)])) +c ((EMemT n_md) *tc (EV n_s23s [(AVar n_ds2); (AVar n_ds3)])))))) /c (EMemC n_pDenUW))).
(** udud::amp2: SM/udud.cpp 211-234 *)
Definition udud_amp2 : meth := mkMeth n_amp2 []
(SLoc rT n_amp2 (EUn I2T (EInt 0));,
SLoc rT n_two (EUn I2T (EInt 2));,
SLoc rT n_three (EUn I2T (EInt 3));,
SLoc rT n_four (EUn I2T (EInt 4));,
SLoc rT n_nine (EUn I2T (EInt 9));,
SDecl rC n_M_rest;,
SDecl rC n_M_W;,
SDecl rC n_M_gluon;,
(SFor n_j1 (EUn NegI (EInt 1)) (EBin (CmpI CLe) (ELocI n_j1) (EInt 1)) (EBin (OpI IAdd) (ELocI n_j1) (EInt 2))
(SFor n_j2 (EUn NegI (EInt 1)) (EBin (CmpI CLe) (ELocI n_j2) (EInt 1)) (EBin (OpI IAdd) (ELocI n_j2) (EInt 2))
(SFor n_j3 (EUn NegI (EInt 1)) (EBin (CmpI CLe) (ELocI n_j3) (EInt 1)) (EBin (OpI IAdd) (ELocI n_j3) (EInt 2))
(SFor n_j4 (EUn NegI (EInt 1)) (EBin (CmpI CLe) (ELocI n_j4) (EInt 1)) (EBin (OpI IAdd) (ELocI n_j4) (EInt 2))
(SLoc rC n_M_rest (ECall n_amp_rest [(AVar n_j1); (AVar n_j2); (AVar n_j3); (AVar n_j4)]);,
SLoc rC n_M_W (ECall n_amp_W [(AVar n_j1); (AVar n_j2); (AVar n_j3); (AVar n_j4)]);,
SLoc rC n_M_gluon (ECall n_amp_gluon [(AVar n_j1); (AVar n_j2); (AVar n_j3); (AVar n_j4)]);,
SLoc rT n_amp2 ((ELocT n_amp2) +t ((ELocT n_nine) *t (EUn Pow2T (EUn AbsC (ELocC n_M_rest)))));,
SLoc rT n_amp2 ((ELocT n_amp2) +t (((ELocT n_three) *t (ELocT n_two)) *t (EUn ReC ((ELocC n_M_rest) *c (EUn ConjC (ELocC n_M_W))))));,
SLoc rT n_amp2 ((ELocT n_amp2) +t ((ELocT n_nine) *t (EUn Pow2T (EUn AbsC (ELocC n_M_W)))));,
SLoc rT n_amp2 ((ELocT n_amp2) +t (((ELocT n_four) *t (ELocT n_two)) *t (EUn ReC ((ELocC n_M_gluon) *c (EUn ConjC (ELocC n_M_W))))));,
SLoc rT n_amp2 ((ELocT n_amp2) +t ((ELocT n_two) *t (EUn Pow2T (EUn AbsC (ELocC n_M_gluon))))))))));,
SReturnT ((ELocT n_amp2) /t (EUn D2T (ELit (36 # 1))))).
(** members: SM/include/udud.h 26-33; initialisers: SM/udud.cpp 32-48 *)
Definition udud : cls := mkCls "udud"
[(n_e, KT);
(n_gs, KT);
(n_mu, KT);
(n_md, KT);
(n_mh, KT);
(n_wh, KT);
(n_MZ, KT);
(n_WZ, KT);
(n_MW, KT);
(n_WW, KT);
(n_SW, KT);
(n_CW, KT);
(n_p1, (KPart 0));
(n_p2, (KPart 1));
(n_p3, (KPart 2));
(n_p4, (KPart 3));
(n_propAG, KProp);
(n_proph, KProp);
(n_propZ, KProp);
(n_propW, KProp);
(n_pDenTAG, KC);
(n_pDenTh, KC);
(n_pDenTZ, KC);
(n_pDenUW, KC);
(n_a13a, KSprod);
(n_s13s, KSprod);
(n_a14a, KSprod);
(n_s14s, KSprod);
(n_a23a, KSprod);
(n_s23s, KSprod);
(n_a24a, KSprod);
(n_s24s, KSprod);
(n_s12s, KSprod);
(n_a12a, KSprod);
(n_s34s, KSprod);
(n_a34a, KSprod);
(n_preh, KT);
(n_gLu, KT);
(n_gRu, KT);
(n_gLd, KT);
(n_gRd, KT);
(n_preZ, KT);
(n_preZ0, KT);
(n_preW, KT)]
[n_echarge; n_gscharge; n_massu; n_massd; n_massh; n_widthh; n_massW; n_widthW; n_sinW; n_widthZ]
[(n_e, NT (ELocT n_echarge));
(n_gs, NT (ELocT n_gscharge));
(n_mu, NT (ELocT n_massu));
(n_md, NT (ELocT n_massd));
(n_mh, NT (ELocT n_massh));
(n_wh, NT (ELocT n_widthh));
(n_MW, NT (ELocT n_massW));
(n_WW, NT (ELocT n_widthW));
(n_SW, NT (ELocT n_sinW));
(n_CW, NT (EUn SqrtT ((EUn D2T (ELit (1 # 1))) -t ((ELocT n_sinW) *t (ELocT n_sinW)))));
(n_WZ, NT (ELocT n_widthZ));
(n_propAG, NProp (EUn I2T (EInt 0)) (EUn I2T (EInt 0)));
(n_proph, NProp (EMemT n_mh) (EMemT n_wh));
(n_propW, NProp (EMemT n_MW) (EMemT n_WW));
(n_p1, NPart (EMemT n_mu));
(n_p2, NPart (EMemT n_md));
(n_p3, NPart (EMemT n_mu));
(n_p4, NPart (EMemT n_md));
(n_a13a, NSprod true 0 [] 2);
(n_s13s, NSprod false 0 [] 2);
(n_a14a, NSprod true 0 [] 3);
(n_s14s, NSprod false 0 [] 3);
(n_a23a, NSprod true 1 [] 2);
(n_s23s, NSprod false 1 [] 2);
(n_a24a, NSprod true 1 [] 3);
(n_s24s, NSprod false 1 [] 3);
(n_s12s, NSprod false 0 [] 1);
(n_a12a, NSprod true 0 [] 1);
(n_s34s, NSprod false 2 [] 3);
(n_a34a, NSprod true 2 [] 3)]
udud_ctor
[udud_set_masses; udud_set_momenta; udud_amp_gluon; udud_amp_rest; udud_amp_W; udud_amp2].

(** ueeu::ueeu: SM/ueeu.cpp 32-60 *)
Definition ueeu_ctor : stmt :=
(SMemT n_MZ ((EMemT n_MW) /t (EMemT n_CW));,
SPropMass n_propZ (EMemT n_MZ);,
SMemT n_preh (((((EMemT n_e) *t (EMemT n_e)) *t (EMemT n_mu)) *t (EMemT n_me)) /t (((((EUn D2T (ELit (4 # 1))) *t (EMemT n_MW)) *t (EMemT n_MW)) *t (EMemT n_SW)) *t (EMemT n_SW)));,
SMemT n_gLu ((EUn D2T (ELit (1 # 1))) -t (((EUn D2T ((ELit (4 # 1)) /d (ELit (3 # 1)))) *t (EMemT n_SW)) *t (EMemT n_SW)));,
SMemT n_gRu (((EUn D2T ((EUn NegD (ELit (4 # 1))) /d (ELit (3 # 1)))) *t (EMemT n_SW)) *t (EMemT n_SW));,
SMemT n_gLe ((EUn D2T (EUn NegD (ELit (1 # 1)))) +t (((EUn D2T (ELit (2 # 1))) *t (EMemT n_SW)) *t (EMemT n_SW)));,
SMemT n_gRe (((EUn D2T (ELit (2 # 1))) *t (EMemT n_SW)) *t (EMemT n_SW));,
SMemT n_preZ (((EMemT n_e) *t (EMemT n_e)) /t (((((EUn D2T (ELit (4 # 1))) *t (EMemT n_CW)) *t (EMemT n_CW)) *t (EMemT n_SW)) *t (EMemT n_SW)));,
SMemT n_preZ0 (((((((EMemT n_preZ) *t ((EMemT n_gLu) -t (EMemT n_gRu))) *t ((EMemT n_gLe) -t (EMemT n_gRe))) *t (EMemT n_mu)) *t (EMemT n_me)) /t (EMemT n_MZ)) /t (EMemT n_MZ))).
(** ueeu::set_masses: SM/ueeu.cpp 61-75 *)
Definition ueeu_set_masses : meth := mkMeth n_set_masses [(n_massu, PkT); (n_masse, PkT); (n_massh, PkT); (n_massW, PkT)]
(SMemT n_mu (ELocT n_massu);,
SMemT n_me (ELocT n_masse);,
SMemT n_mh (ELocT n_massh);,
SPropMass n_proph (EMemT n_mh);,
SMemT n_MW (ELocT n_massW);,
SMemT n_MZ ((EMemT n_MW) /t (EMemT n_CW));,
SPropMass n_propZ (EMemT n_MZ);,
SSetMass 0 (EMemT n_mu);,
SSetMass 1 (EMemT n_me);,
SSetMass 2 (EMemT n_me);,
SSetMass 3 (EMemT n_mu);,
SMemT n_preh (((((EMemT n_e) *t (EMemT n_e)) *t (EMemT n_mu)) *t (EMemT n_me)) /t (((((EUn I2T (EInt 4)) *t (EMemT n_MW)) *t (EMemT n_MW)) *t (EMemT n_SW)) *t (EMemT n_SW)));,
SMemT n_preZ0 (((((((EMemT n_preZ) *t ((EMemT n_gLu) -t (EMemT n_gRu))) *t ((EMemT n_gLe) -t (EMemT n_gRe))) *t (EMemT n_mu)) *t (EMemT n_me)) /t (EMemT n_MZ)) /t (EMemT n_MZ))).
(** ueeu::set_momenta: SM/ueeu.cpp 76-101 *)
Definition ueeu_set_momenta : meth := mkMeth n_set_momenta [(n_mom1, PkMom); (n_mom2, PkMom); (n_mom3, PkMom); (n_mom4, PkMom)]
(SSetMomentum 0 n_mom1;,
SSetMomentum 1 n_mom2;,
SSetMomentum 2 n_mom3;,
SSetMomentum 3 n_mom4;,
SUpdate n_a13a;,
SUpdate n_s13s;,
SUpdate n_a14a;,
SUpdate n_s14s;,
SUpdate n_a23a;,
SUpdate n_s23s;,
SUpdate n_a24a;,
SUpdate n_s24s;,
SUpdate n_s12s;,
SUpdate n_a12a;,
SUpdate n_s34s;,
SUpdate n_a34a;,
SDeclT n_propP 4;,
(SFor n_j (EInt 0) (EBin (CmpI CLt) (ELocI n_j) (EInt 4)) (EBin (OpI IAdd) (ELocI n_j) (EInt 1))
(SArrT n_propP (AVar n_j) ((EArrT n_mom1 (AVar n_j)) -t (EArrT n_mom4 (AVar n_j)))));,
SMemC n_pDenUA (EDen n_propA n_propP);,
SMemC n_pDenUh (EDen n_proph n_propP);,
SMemC n_pDenUZ (EDen n_propZ n_propP)).
(** ueeu::amp: SM/ueeu.cpp 106-161 *)
Definition ueeu_amp : meth := mkMeth n_amp [(n_ds1, PkI); (n_ds2, PkI); (n_ds3, PkI); (n_ds4, PkI)]
(SLoc rT n_two (EUn I2T (EInt 2));,
SLoc rC n_amplitude (EBin OpTTC (EUn I2T (EInt 0)) (EUn I2T (EInt 0)));,
SLoc rC n_amplitude (((((((EUn NegT (ELocT n_two)) *t (EMemT n_e)) *t (EMemT n_e)) *t (EUn D2T (ELit (2 # 1)))) /t (EUn D2T (ELit (3 # 1)))) *tc (((((EUn NegC (EV n_a13a [(AVar n_ds1); (AVar n_ds3)])) *c (EV n_s24s [(AVar n_ds2); (AVar n_ds4)])) +c ((EV n_a12a [(AVar n_ds1); (AVar n_ds2)]) *c (EV n_s34s [(AVar n_ds3); (AVar n_ds4)]))) -c ((EV n_s13s [(AVar n_ds1); (AVar n_ds3)]) *c (EV n_a24a [(AVar n_ds2); (AVar n_ds4)]))) +c ((EV n_s12s [(AVar n_ds1); (AVar n_ds2)]) *c (EV n_a34a [(AVar n_ds3); (AVar n_ds4)])))) /c (EMemC n_pDenUA));,
SLoc rC n_amplitude ((ELocC n_amplitude) +c ((((EUn NegT (EMemT n_preh)) *tc ((EV n_s14s [(AVar n_ds1); (AVar n_ds4)]) -c (EV n_a14a [(AVar n_ds1); (AVar n_ds4)]))) *c ((EV n_s23s [(AVar n_ds2); (AVar n_ds3)]) -c (EV n_a23a [(AVar n_ds2); (AVar n_ds3)]))) /c (EMemC n_pDenUh)));,
SLoc rC n_amplitude ((ELocC n_amplitude) +c (((((EMemT n_preZ0) *tc ((EV n_a14a [(AVar n_ds1); (AVar n_ds4)]) +c (EV n_s14s [(AVar n_ds1); (AVar n_ds4)]))) *c ((EV n_a23a [(AVar n_ds2); (AVar n_ds3)]) +c (EV n_s23s [(AVar n_ds2); (AVar n_ds3)]))) /c (EMemC n_pDenUZ)) +c ((((ELocT n_two) *t (EMemT n_preZ)) *tc (((((((EMemT n_gLu) *t (EMemT n_gLe)) *tc (EV n_s34s [(AVar n_ds3); (AVar n_ds4)])) *c (EV n_a12a [(AVar n_ds1); (AVar n_ds2)])) -c ((((EMemT n_gLe) *t (EMemT n_gRu)) *tc (EV n_s13s [(AVar n_ds1); (AVar n_ds3)])) *c (EV n_a24a [(AVar n_ds2); (AVar n_ds4)]))) -c ((((EMemT n_gLu) *t (EMemT n_gRe)) *tc (EV n_s24s [(AVar n_ds2); (AVar n_ds4)])) *c (EV n_a13a [(AVar n_ds1); (AVar n_ds3)]))) +c ((((EMemT n_gRu) *t (EMemT n_gRe)) *tc (EV n_s12s [(AVar n_ds1); (AVar n_ds2)])) *c (EV n_a34a [(AVar n_ds3); (AVar n_ds4)])))) /c (EMemC n_pDenUZ))));,
SReturnC (ELocC n_amplitude)).
(** ueeu::amp2: SM/ueeu.cpp 164-180 *)
Definition ueeu_amp2 : meth := mkMeth n_amp2 []
(SLoc rT n_amp2 (EUn I2T (EInt 0));,
SLoc rT n_two (EUn I2T (EInt 2));,
SLoc rT n_three (EUn I2T (EInt 3));,
SDecl rC n_M;,
(SFor n_j1 (EUn NegI (EInt 1)) (EBin (CmpI CLe) (ELocI n_j1) (EInt 1)) (EBin (OpI IAdd) (ELocI n_j1) (EInt 2))
(SFor n_j2 (EUn NegI (EInt 1)) (EBin (CmpI CLe) (ELocI n_j2) (EInt 1)) (EBin (OpI IAdd) (ELocI n_j2) (EInt 2))
(SFor n_j3 (EUn NegI (EInt 1)) (EBin (CmpI CLe) (ELocI n_j3) (EInt 1)) (EBin (OpI IAdd) (ELocI n_j3) (EInt 2))
(SFor n_j4 (EUn NegI (EInt 1)) (EBin (CmpI CLe) (ELocI n_j4) (EInt 1)) (EBin (OpI IAdd) (ELocI n_j4) (EInt 2))
(SLoc rC n_M (ECall n_amp [(AVar n_j1); (AVar n_j2); (AVar n_j3); (AVar n_j4)]);,
SLoc rT n_amp2 ((ELocT n_amp2) +t ((ELocT n_three) *t (EUn Pow2T (EUn AbsC (ELocC n_M))))))))));,
SReturnT ((ELocT n_amp2) /t (EUn D2T (ELit (12 # 1))))).
(** members: SM/include/ueeu.h 26-33; initialisers: SM/ueeu.cpp 32-48 *)
Definition ueeu : cls := mkCls "ueeu"
[(n_e, KT);
(n_mu, KT);
(n_me, KT);
(n_mh, KT);
(n_wh, KT);
(n_MZ, KT);
(n_WZ, KT);
(n_MW, KT);
(n_SW, KT);
(n_CW, KT);
(n_p1, (KPart 0));
(n_p2, (KPart 1));
(n_p3, (KPart 2));
(n_p4, (KPart 3));
(n_propA, KProp);
(n_proph, KProp);
(n_propZ, KProp);
(n_pDenUA, KC);
(n_pDenUh, KC);
(n_pDenUZ, KC);
(n_a13a, KSprod);
(n_s13s, KSprod);
(n_a14a, KSprod);
(n_s14s, KSprod);
(n_a23a, KSprod);
(n_s23s, KSprod);
(n_a24a, KSprod);
(n_s24s, KSprod);
(n_s12s, KSprod);
(n_a12a, KSprod);
(n_s34s, KSprod);
(n_a34a, KSprod);
(n_preh, KT);
(n_gLu, KT);
(n_gRu, KT);
(n_gLe, KT);
(n_gRe, KT);
(n_preZ, KT);
(n_preZ0, KT)]
[n_echarge; n_massu; n_masse; n_massh; n_widthh; n_massW; n_sinW; n_widthZ]
[(n_e, NT (ELocT n_echarge));
(n_mu, NT (ELocT n_massu));
(n_me, NT (ELocT n_masse));
(n_mh, NT (ELocT n_massh));
(n_wh, NT (ELocT n_widthh));
(n_MW, NT (ELocT n_massW));
(n_SW, NT (ELocT n_sinW));
(n_CW, NT (EUn SqrtT ((EUn D2T (ELit (1 # 1))) -t ((ELocT n_sinW) *t (ELocT n_sinW)))));
(n_WZ, NT (ELocT n_widthZ));
(n_propA, NProp (EUn I2T (EInt 0)) (EUn I2T (EInt 0)));
(n_proph, NProp (EMemT n_mh) (EMemT n_wh));
(n_p1, NPart (EMemT n_mu));
(n_p2, NPart (EMemT n_me));
(n_p3, NPart (EMemT n_me));
(n_p4, NPart (EMemT n_mu));
(n_a13a, NSprod true 0 [] 2);
(n_s13s, NSprod false 0 [] 2);
(n_a14a, NSprod true 0 [] 3);
(n_s14s, NSprod false 0 [] 3);
(n_a23a, NSprod true 1 [] 2);
(n_s23s, NSprod false 1 [] 2);
(n_a24a, NSprod true 1 [] 3);
(n_s24s, NSprod false 1 [] 3);
(n_s12s, NSprod false 0 [] 1);
(n_a12a, NSprod true 0 [] 1);
(n_s34s, NSprod false 2 [] 3);
(n_a34a, NSprod true 2 [] 3)]
ueeu_ctor
[ueeu_set_masses; ueeu_set_momenta; ueeu_amp; ueeu_amp2].

(** uguh::uguh: SM/uguh.cpp 32-53 *)
Definition uguh_ctor : stmt :=
(SLoc rT n_two (EUn I2T (EInt 2));,
SMemT n_sqrt2 (EUn SqrtT (ELocT n_two));,
SParticle 0 (EMemT n_mu);,
SParticle 1 (EUn I2T (EInt 0));,
SParticle 2 (EMemT n_mu);,
SParticle 3 (EMemT n_mh);,
SSprod n_s12s false 0 [] 1;,
SSprod n_a12a true 0 [] 1;,
SSprod n_s23s false 1 [] 2;,
SSprod n_a23a true 1 [] 2;,
SSprod n_s13s false 0 [] 2;,
SSprod n_a13a true 0 [] 2;,
SSprod n_s243a false 1 [3] 2;,
SSprod n_a243s true 1 [3] 2;,
SSprod n_s241a false 1 [3] 0;,
SSprod n_a241s true 1 [3] 0;,
SSprod n_s2342s false 1 [2; 3] 1;,
SSprod n_a2342a true 1 [2; 3] 1;,
SMemT n_pre (((((EMemT n_sqrt2) *t (EMemT n_e)) *t (EMemT n_gs)) *t (EMemT n_mu)) /t (((EUn D2T (ELit (2 # 1))) *t (EMemT n_MW)) *t (EMemT n_SW)))).
(** uguh::set_masses: SM/uguh.cpp 54-62 *)
Definition uguh_set_masses : meth := mkMeth n_set_masses [(n_massu, PkT); (n_massh, PkT); (n_massW, PkT)]
(SMemT n_mu (ELocT n_massu);,
SMemT n_mh (ELocT n_massh);,
SSetMass 0 (EMemT n_mu);,
SSetMass 2 (EMemT n_mu);,
SSetMass 3 (EMemT n_mh);,
SPropMass n_prop (EMemT n_mu);,
SMemT n_pre (((((EMemT n_sqrt2) *t (EMemT n_e)) *t (EMemT n_gs)) *t (EMemT n_mu)) /t (((EUn D2T (ELit (2 # 1))) *t (EMemT n_MW)) *t (EMemT n_SW)))).
(** uguh::set_momenta: SM/uguh.cpp 63-89 *)
Definition uguh_set_momenta : meth := mkMeth n_set_momenta [(n_mom1, PkMom); (n_mom2, PkMom); (n_mom3, PkMom); (n_mom4, PkMom)]
(SSetMomentum 0 n_mom1;,
SSetMomentum 1 n_mom2;,
SSetMomentum 2 n_mom3;,
SSetMomentum 3 n_mom4;,
SUpdate n_s12s;,
SUpdate n_a12a;,
SUpdate n_s23s;,
SUpdate n_a23a;,
SUpdate n_s13s;,
SUpdate n_a13a;,
SUpdate n_s243a;,
SUpdate n_a243s;,
SUpdate n_s241a;,
SUpdate n_a241s;,
SUpdate n_s2342s;,
SUpdate n_a2342a;,
SDeclT n_propSP 4;,
SDeclT n_propUP 4;,
(SFor n_j (EInt 0) (EBin (CmpI CLt) (ELocI n_j) (EInt 4)) (EBin (OpI IAdd) (ELocI n_j) (EInt 1))
(SArrT n_propSP (AVar n_j) ((EArrT n_mom1 (AVar n_j)) +t (EArrT n_mom2 (AVar n_j)));,
SArrT n_propUP (AVar n_j) ((EArrT n_mom1 (AVar n_j)) -t (EArrT n_mom4 (AVar n_j)))));,
SMemC n_pDenS (EDen n_prop n_propSP);,
SMemC n_pDenU (EDen n_prop n_propUP)).
(** uguh::amp: SM/uguh.cpp 94-108 *)
Definition uguh_amp : meth := mkMeth n_amp [(n_ds1, PkI); (n_ds2, PkI); (n_ds3, PkI)]
((SIf (EBin (CmpI CGt) (ELocI n_ds2) (EInt 0))
(SReturnC ((((EMemT n_pre) *tc (((((((EMemT n_mh) *t (EMemT n_mh)) *tc (EV n_s12s [(AVar n_ds1)])) *c (EV n_s23s [(AVar n_ds3)])) -c (((EMemT n_mu) *tc (EV n_s12s [(AVar n_ds1)])) *c (EV n_s243a [(AVar n_ds3)]))) -c (((EMemT n_mu) *tc (EV n_s23s [(AVar n_ds3)])) *c (EV n_s241a [(AVar n_ds1)]))) +c ((EV n_a13a [(AVar n_ds1); (AVar n_ds3)]) *c (EV n_s2342s [])))) /c (EMemC n_pDenS)) /c (EMemC n_pDenU)))
((SIf (EBin (CmpI CLt) (ELocI n_ds2) (EInt 0))
(SReturnC ((((EMemT n_pre) *tc (((((((EUn NegT (EMemT n_mh)) *t (EMemT n_mh)) *tc (EV n_a12a [(AVar n_ds1)])) *c (EV n_a23a [(AVar n_ds3)])) +c (((EMemT n_mu) *tc (EV n_a12a [(AVar n_ds1)])) *c (EV n_a243s [(AVar n_ds3)]))) +c (((EMemT n_mu) *tc (EV n_a23a [(AVar n_ds3)])) *c (EV n_a241s [(AVar n_ds1)]))) -c ((EV n_s13s [(AVar n_ds1); (AVar n_ds3)]) *c (EV n_a2342a [])))) /c (EMemC n_pDenS)) /c (EMemC n_pDenU)))
(SSkip))));,
SReturnC (EBin OpTTC (EUn I2T (EInt 0)) (EUn I2T (EInt 0)))).
(** uguh::amp2: SM/uguh.cpp 111-125 *)
Definition uguh_amp2 : meth := mkMeth n_amp2 []
(SLoc rT n_amp2 (EUn I2T (EInt 0));,
SDecl rC n_M;,
(SFor n_j1 (EUn NegI (EInt 1)) (EBin (CmpI CLe) (ELocI n_j1) (EInt 1)) (EBin (OpI IAdd) (ELocI n_j1) (EInt 2))
(SFor n_j2 (EUn NegI (EInt 2)) (EBin (CmpI CLe) (ELocI n_j2) (EInt 2)) (EBin (OpI IAdd) (ELocI n_j2) (EInt 4))
(SFor n_j3 (EUn NegI (EInt 1)) (EBin (CmpI CLe) (ELocI n_j3) (EInt 1)) (EBin (OpI IAdd) (ELocI n_j3) (EInt 2))
(SLoc rC n_M (ECall n_amp [(AVar n_j1); (AVar n_j2); (AVar n_j3)]);,
SLoc rT n_amp2 ((ELocT n_amp2) +t ((EUn D2T (ELit (4 # 1))) *t (EUn Pow2T (EUn AbsC (ELocC n_M)))))))));,
SReturnT ((ELocT n_amp2) /t (EUn D2T (ELit (96 # 1))))).
(** uguh::amp2_gplus: SM/uguh.cpp 129-142 *)
Definition uguh_amp2_gplus : meth := mkMeth n_amp2_gplus []
(SLoc rT n_amp2 (EUn I2T (EInt 0));,
SDecl rC n_M;,
(SFor n_j1 (EUn NegI (EInt 1)) (EBin (CmpI CLe) (ELocI n_j1) (EInt 1)) (EBin (OpI IAdd) (ELocI n_j1) (EInt 2))
(SFor n_j3 (EUn NegI (EInt 1)) (EBin (CmpI CLe) (ELocI n_j3) (EInt 1)) (EBin (OpI IAdd) (ELocI n_j3) (EInt 2))
(SLoc rC n_M (ECall n_amp [(AVar n_j1); (ALit 2); (AVar n_j3)]);,
SLoc rT n_amp2 ((ELocT n_amp2) +t ((EUn D2T (ELit (4 # 1))) *t (EUn Pow2T (EUn AbsC (ELocC n_M))))))));,
SReturnT ((ELocT n_amp2) /t (EUn D2T (ELit (48 # 1))))).
(** members: SM/include/uguh.h 26-33; initialisers: SM/uguh.cpp 32-33 *)
Definition uguh : cls := mkCls "uguh"
[(n_e, KT);
(n_gs, KT);
(n_mu, KT);
(n_mh, KT);
(n_MW, KT);
(n_SW, KT);
(n_pre, KT);
(n_p1, (KPart 0));
(n_p2, (KPart 1));
(n_p3, (KPart 2));
(n_p4, (KPart 3));
(n_prop, KProp);
(n_pDenS, KC);
(n_pDenU, KC);
(n_s12s, KSprod);
(n_a12a, KSprod);
(n_s23s, KSprod);
(n_a23a, KSprod);
(n_s13s, KSprod);
(n_a13a, KSprod);
(n_s243a, KSprod);
(n_a243s, KSprod);
(n_s241a, KSprod);
(n_a241s, KSprod);
(n_s2342s, KSprod);
(n_a2342a, KSprod);
(n_sqrt2, KT)]
[n_echarge; n_gscharge; n_massu; n_massh; n_massW; n_sinW]
[(n_e, NT (ELocT n_echarge));
(n_gs, NT (ELocT n_gscharge));
(n_mu, NT (ELocT n_massu));
(n_mh, NT (ELocT n_massh));
(n_prop, NProp (ELocT n_massu) (EUn I2T (EInt 0)));
(n_MW, NT (ELocT n_massW));
(n_SW, NT (ELocT n_sinW))]
uguh_ctor
[uguh_set_masses; uguh_set_momenta; uguh_amp; uguh_amp2; uguh_amp2_gplus].

(** uhWd::uhWd: SM/uhWd.cpp 32-52 *)
Definition uhWd_ctor : stmt :=
(SParticle 0 (EMemT n_mu);,
SParticle 1 (EMemT n_mh);,
SParticle 2 (EMemT n_MW);,
SParticle 3 (EMemT n_md);,
SSprod n_a13a true 0 [] 2;,
SSprod n_s43s false 3 [] 2;,
SSprod n_a14a true 0 [] 3;,
SSprod n_s14s false 0 [] 3;,
SSprod n_s323a false 2 [1] 2;,
SSprod n_s324a false 2 [1] 3;,
SSprod n_s123a false 0 [1] 2;,
SMemT n_preW (((EMemT n_e) *t (EMemT n_e)) /t (((((EUn D2T (ELit (2 # 1))) *t (EMemT n_MW)) *t (EMemT n_MW)) *t (EMemT n_SW)) *t (EMemT n_SW)));,
SMemT n_preu ((EMemT n_mu) *t (EMemT n_preW));,
SMemT n_pred ((EMemT n_md) *t (EMemT n_preW))).
(** uhWd::set_masses: SM/uhWd.cpp 53-69 *)
Definition uhWd_set_masses : meth := mkMeth n_set_masses [(n_massu, PkT); (n_massd, PkT); (n_massh, PkT); (n_massW, PkT)]
(SMemT n_mu (ELocT n_massu);,
SMemT n_md (ELocT n_massd);,
SMemT n_mh (ELocT n_massh);,
SMemT n_MW (ELocT n_massW);,
SSetMass 0 (EMemT n_mu);,
SSetMass 1 (EMemT n_mh);,
SSetMass 2 (EMemT n_MW);,
SSetMass 3 (EMemT n_md);,
SPropMass n_propu (EMemT n_mu);,
SPropMass n_propd (EMemT n_md);,
SPropMass n_propW (EMemT n_MW);,
SMemT n_preW (((EMemT n_e) *t (EMemT n_e)) /t (((((EUn D2T (ELit (2 # 1))) *t (EMemT n_MW)) *t (EMemT n_MW)) *t (EMemT n_SW)) *t (EMemT n_SW)));,
SMemT n_preu ((EMemT n_mu) *t (EMemT n_preW));,
SMemT n_pred ((EMemT n_md) *t (EMemT n_preW))).
(** uhWd::set_momenta: SM/uhWd.cpp 70-96 *)
Definition uhWd_set_momenta : meth := mkMeth n_set_momenta [(n_mom1, PkMom); (n_mom2, PkMom); (n_mom3, PkMom); (n_mom4, PkMom)]
(SSetMomentum 0 n_mom1;,
SSetMomentum 1 n_mom2;,
SSetMomentum 2 n_mom3;,
SSetMomentum 3 n_mom4;,
SUpdate n_a13a;,
SUpdate n_s43s;,
SUpdate n_a14a;,
SUpdate n_s14s;,
SUpdate n_s323a;,
SUpdate n_s324a;,
SUpdate n_s123a;,
SDeclT n_propSP 4;,
SDeclT n_propTP 4;,
SDeclT n_propUP 4;,
(SFor n_j (EInt 0) (EBin (CmpI CLt) (ELocI n_j) (EInt 4)) (EBin (OpI IAdd) (ELocI n_j) (EInt 1))
(SArrT n_propSP (AVar n_j) ((EArrT n_mom1 (AVar n_j)) +t (EArrT n_mom2 (AVar n_j)));,
SArrT n_propTP (AVar n_j) ((EArrT n_mom1 (AVar n_j)) -t (EArrT n_mom3 (AVar n_j)));,
SArrT n_propUP (AVar n_j) ((EArrT n_mom1 (AVar n_j)) -t (EArrT n_mom4 (AVar n_j)))));,
SMemC n_pDenU (EDen n_propW n_propUP);,
SMemC n_pDenS (EDen n_propu n_propSP);,
SMemC n_pDenT (EDen n_propd n_propTP)).
(** uhWd::amp: SM/uhWd.cpp 101-146 *)
Definition uhWd_amp : meth := mkMeth n_amp [(n_ds1, PkI); (n_ds3, PkI); (n_ds4, PkI)]
(SLoc rC n_amplitude (EBin OpTTC (EUn I2T (EInt 0)) (EUn I2T (EInt 0)));,
SDecl rI n_ds3a;,
SDecl rI n_ds3b;,
SLoc rT n_two (EUn I2T (EInt 2));,
SLoc rI n_nCombs (ENLoops [(AVar n_ds3)]);,
SLoc rT n_normFactor (ENorm [(AVar n_ds3)]);,
(SFor n_i (EInt 0) (EBin (CmpI CLt) (ELocI n_i) (ELocI n_nCombs)) (EBin (OpI IAdd) (ELocI n_i) (EInt 1))
(SSpins [(n_ds3, n_ds3a, n_ds3b)] (AVar n_i);,
SLoc rC n_amplitude ((ELocC n_amplitude) +c ((((ELocT n_normFactor) *t (EMemT n_preW)) *tc ((((((ELocT n_two) *t (EMemT n_MW)) *t (EMemT n_MW)) *tc (EV n_a13a [(AVar n_ds1); (AVar n_ds3a)])) *c (EV n_s43s [(AVar n_ds4); (AVar n_ds3b)])) -c ((((EMemT n_md) *tc (EV n_a14a [(AVar n_ds1); (AVar n_ds4)])) +c ((EMemT n_mu) *tc (EV n_s14s [(AVar n_ds1); (AVar n_ds4)]))) *c (EV n_s323a [(AVar n_ds3a); (AVar n_ds3b)])))) /c (EMemC n_pDenU)));,
SLoc rC n_amplitude ((ELocC n_amplitude) +c (((((ELocT n_normFactor) *t (EMemT n_pred)) *tc (EV n_a13a [(AVar n_ds1); (AVar n_ds3a)])) *c ((((ELocT n_two) *t (EMemT n_md)) *tc (EV n_s43s [(AVar n_ds4); (AVar n_ds3b)])) -c (EV n_s324a [(AVar n_ds3b); (AVar n_ds4)]))) /c (EMemC n_pDenT)));,
SLoc rC n_amplitude ((ELocC n_amplitude) +c (((((ELocT n_normFactor) *t (EMemT n_preu)) *tc (EV n_s43s [(AVar n_ds4); (AVar n_ds3a)])) *c ((((ELocT n_two) *t (EMemT n_mu)) *tc (EV n_a13a [(AVar n_ds1); (AVar n_ds3b)])) +c (EV n_s123a [(AVar n_ds1); (AVar n_ds3b)]))) /c (EMemC n_pDenS)))));,
SReturnC (ELocC n_amplitude)).
(** uhWd::amp2: SM/uhWd.cpp 149-165 *)
Definition uhWd_amp2 : meth := mkMeth n_amp2 []
(SLoc rT n_three (EUn I2T (EInt 3));,
SLoc rT n_amp2 (EUn I2T (EInt 0));,
SDecl rC n_M;,
(SFor n_j1 (EUn NegI (EInt 1)) (EBin (CmpI CLe) (ELocI n_j1) (EInt 1)) (EBin (OpI IAdd) (ELocI n_j1) (EInt 2))
(SFor n_j3 (EUn NegI (EInt 2)) (EBin (CmpI CLe) (ELocI n_j3) (EInt 2)) (EBin (OpI IAdd) (ELocI n_j3) (EInt 2))
(SFor n_j4 (EUn NegI (EInt 1)) (EBin (CmpI CLe) (ELocI n_j4) (EInt 1)) (EBin (OpI IAdd) (ELocI n_j4) (EInt 2))
(SLoc rC n_M (ECall n_amp [(AVar n_j1); (AVar n_j3); (AVar n_j4)]);,
SLoc rT n_amp2 ((ELocT n_amp2) +t ((ELocT n_three) *t (EUn Pow2T (EUn AbsC (ELocC n_M)))))))));,
SReturnT ((ELocT n_amp2) /t (EUn D2T (ELit (6 # 1))))).
(** members: SM/include/uhWd.h 26-37; initialisers: SM/uhWd.cpp 32-33 *)
Definition uhWd : cls := mkCls "uhWd"
[(n_e, KT);
(n_mu, KT);
(n_md, KT);
(n_mh, KT);
(n_MW, KT);
(n_WW, KT);
(n_SW, KT);
(n_p1, (KPart 0));
(n_p2, (KPart 1));
(n_p3, (KPart 2));
(n_p4, (KPart 3));
(n_propu, KProp);
(n_propd, KProp);
(n_propW, KProp);
(n_pDenS, KC);
(n_pDenU, KC);
(n_pDenT, KC);
(n_a13a, KSprod);
(n_s43s, KSprod);
(n_a14a, KSprod);
(n_s14s, KSprod);
(n_s323a, KSprod);
(n_s324a, KSprod);
(n_s123a, KSprod);
(n_preu, KT);
(n_pred, KT);
(n_preW, KT)]
[n_echarge; n_massu; n_massd; n_massh; n_massW; n_widthW; n_sinW]
[(n_e, NT (ELocT n_echarge));
(n_mu, NT (ELocT n_massu));
(n_md, NT (ELocT n_massd));
(n_mh, NT (ELocT n_massh));
(n_MW, NT (ELocT n_massW));
(n_WW, NT (ELocT n_widthW));
(n_SW, NT (ELocT n_sinW));
(n_propu, NProp (ELocT n_massu) (EUn I2T (EInt 0)));
(n_propd, NProp (ELocT n_massd) (EUn I2T (EInt 0)));
(n_propW, NProp (ELocT n_massW) (ELocT n_widthW))]
uhWd_ctor
[uhWd_set_masses; uhWd_set_momenta; uhWd_amp; uhWd_amp2].

(** uhuh::uhuh: SM/uhuh.cpp 32-45 *)
Definition uhuh_ctor : stmt :=
(SMemT n_prehS (((((((EUn D2T (ELit (3 # 1))) *t (EMemT n_e)) *t (EMemT n_e)) *t (EMemT n_mu)) *t (EMemT n_mh)) *t (EMemT n_mh)) /t (((((EUn D2T (ELit (4 # 1))) *t (EMemT n_MW)) *t (EMemT n_MW)) *t (EMemT n_SW)) *t (EMemT n_SW)));,
SMemT n_prehTU (((((EMemT n_e) *t (EMemT n_e)) *t (EMemT n_mu)) *t (EMemT n_mu)) /t (((((EUn D2T (ELit (4 # 1))) *t (EMemT n_MW)) *t (EMemT n_MW)) *t (EMemT n_SW)) *t (EMemT n_SW)))).
(** uhuh::set_masses: SM/uhuh.cpp 46-59 *)
Definition uhuh_set_masses : meth := mkMeth n_set_masses [(n_massu, PkT); (n_massh, PkT); (n_massW, PkT)]
(SMemT n_mu (ELocT n_massu);,
SPropMass n_propu (EMemT n_mu);,
SMemT n_mh (ELocT n_massh);,
SPropMass n_proph (EMemT n_mh);,
SMemT n_MW (ELocT n_massW);,
SSetMass 0 (EMemT n_mu);,
SSetMass 1 (EMemT n_mh);,
SSetMass 2 (EMemT n_mu);,
SSetMass 3 (EMemT n_mh);,
SMemT n_prehS (((((((EUn D2T (ELit (3 # 1))) *t (EMemT n_e)) *t (EMemT n_e)) *t (EMemT n_mu)) *t (EMemT n_mh)) *t (EMemT n_mh)) /t (((((EUn D2T (ELit (4 # 1))) *t (EMemT n_MW)) *t (EMemT n_MW)) *t (EMemT n_SW)) *t (EMemT n_SW)));,
SMemT n_prehTU (((((EMemT n_e) *t (EMemT n_e)) *t (EMemT n_mu)) *t (EMemT n_mu)) /t (((((EUn D2T (ELit (4 # 1))) *t (EMemT n_MW)) *t (EMemT n_MW)) *t (EMemT n_SW)) *t (EMemT n_SW)))).
(** uhuh::set_momenta: SM/uhuh.cpp 60-80 *)
Definition uhuh_set_momenta : meth := mkMeth n_set_momenta [(n_mom1, PkMom); (n_mom2, PkMom); (n_mom3, PkMom); (n_mom4, PkMom)]
(SSetMomentum 0 n_mom1;,
SSetMomentum 1 n_mom2;,
SSetMomentum 2 n_mom3;,
SSetMomentum 3 n_mom4;,
SUpdate n_s13s;,
SUpdate n_a13a;,
SUpdate n_s123a;,
SUpdate n_s321a;,
SDeclT n_propPS 4;,
SDeclT n_propPT 4;,
SDeclT n_propPU 4;,
(SFor n_j (EInt 0) (EBin (CmpI CLt) (ELocI n_j) (EInt 4)) (EBin (OpI IAdd) (ELocI n_j) (EInt 1))
(SArrT n_propPS (AVar n_j) ((EArrT n_mom1 (AVar n_j)) +t (EArrT n_mom2 (AVar n_j)));,
SArrT n_propPT (AVar n_j) ((EArrT n_mom1 (AVar n_j)) -t (EArrT n_mom3 (AVar n_j)));,
SArrT n_propPU (AVar n_j) ((EArrT n_mom1 (AVar n_j)) -t (EArrT n_mom4 (AVar n_j)))));,
SMemC n_pDenTh (EDen n_proph n_propPT);,
SMemC n_pDenSu (EDen n_propu n_propPS);,
SMemC n_pDenUu (EDen n_propu n_propPU)).
(** uhuh::amp: SM/uhuh.cpp 85-120 *)
Definition uhuh_amp : meth := mkMeth n_amp [(n_ds1, PkI); (n_ds3, PkI)]
(SLoc rT n_two (EUn I2T (EInt 2));,
SLoc rC n_amplitude (EBin OpTTC (EUn I2T (EInt 0)) (EUn I2T (EInt 0)));,
SLoc rC n_amplitude ((ELocC n_amplitude) +c (((EMemT n_prehS) *tc ((EV n_s13s [(AVar n_ds1); (AVar n_ds3)]) -c (EV n_a13a [(AVar n_ds1); (AVar n_ds3)]))) /c (EMemC n_pDenTh)));,
SLoc rC n_amplitude ((ELocC n_amplitude) +c (((EMemT n_prehTU) *tc (((((ELocT n_two) *t (EMemT n_mu)) *tc ((EV n_s13s [(AVar n_ds1); (AVar n_ds3)]) -c (EV n_a13a [(AVar n_ds1); (AVar n_ds3)]))) -c (EV n_s123a [(AVar n_ds1); (AVar n_ds3)])) +c (EV n_s321a [(AVar n_ds3); (AVar n_ds1)]))) /c (EMemC n_pDenSu)));,
SLoc rC n_amplitude ((ELocC n_amplitude) +c (((EMemT n_prehTU) *tc (((((ELocT n_two) *t (EMemT n_mu)) *tc ((EV n_s13s [(AVar n_ds1); (AVar n_ds3)]) -c (EV n_a13a [(AVar n_ds1); (AVar n_ds3)]))) +c (EV n_s123a [(AVar n_ds1); (AVar n_ds3)])) -c (EV n_s321a [(AVar n_ds3); (AVar n_ds1)]))) /c (EMemC n_pDenUu)));,
SReturnC (ELocC n_amplitude)).
(** uhuh::amp2: SM/uhuh.cpp 123-136 *)
Definition uhuh_amp2 : meth := mkMeth n_amp2 []
(SLoc rT n_amp2 (EUn I2T (EInt 0));,
SDecl rC n_M;,
(SFor n_j1 (EUn NegI (EInt 1)) (EBin (CmpI CLe) (ELocI n_j1) (EInt 1)) (EBin (OpI IAdd) (ELocI n_j1) (EInt 2))
(SFor n_j3 (EUn NegI (EInt 1)) (EBin (CmpI CLe) (ELocI n_j3) (EInt 1)) (EBin (OpI IAdd) (ELocI n_j3) (EInt 2))
(SLoc rC n_M (ECall n_amp [(AVar n_j1); (AVar n_j3)]);,
SLoc rT n_amp2 ((ELocT n_amp2) +t ((EUn D2T (ELit (3 # 1))) *t (EUn Pow2T (EUn AbsC (ELocC n_M))))))));,
SReturnT ((ELocT n_amp2) /t (EUn D2T (ELit (6 # 1))))).
(** members: SM/include/uhuh.h 26-32; initialisers: SM/uhuh.cpp 32-40 *)
Definition uhuh : cls := mkCls "uhuh"
[(n_e, KT);
(n_mu, KT);
(n_mh, KT);
(n_wh, KT);
(n_MW, KT);
(n_SW, KT);
(n_p1, (KPart 0));
(n_p2, (KPart 1));
(n_p3, (KPart 2));
(n_p4, (KPart 3));
(n_proph, KProp);
(n_propu, KProp);
(n_pDenTh, KC);
(n_pDenSu, KC);
(n_pDenUu, KC);
(n_s13s, KSprod);
(n_a13a, KSprod);
(n_s123a, KSprod);
(n_s321a, KSprod);
(n_prehS, KT);
(n_prehTU, KT)]
[n_echarge; n_massu; n_massh; n_widthh; n_massW; n_sinW]
[(n_e, NT (ELocT n_echarge));
(n_mu, NT (ELocT n_massu));
(n_mh, NT (ELocT n_massh));
(n_wh, NT (ELocT n_widthh));
(n_MW, NT (ELocT n_massW));
(n_SW, NT (ELocT n_sinW));
(n_propu, NProp (EMemT n_mu) (EUn I2T (EInt 0)));
(n_proph, NProp (EMemT n_mh) (EMemT n_wh));
(n_p1, NPart (EMemT n_mu));
(n_p2, NPart (EMemT n_mh));
(n_p3, NPart (EMemT n_mu));
(n_p4, NPart (EMemT n_mh));
(n_s13s, NSprod false 0 [] 2);
(n_a13a, NSprod true 0 [] 2);
(n_s123a, NSprod false 0 [1] 2);
(n_s321a, NSprod false 2 [1] 0)]
uhuh_ctor
[uhuh_set_masses; uhuh_set_momenta; uhuh_amp; uhuh_amp2].

(** ulnd::ulnd: SM/ulnd.cpp 32-45 *)
Definition ulnd_ctor : stmt :=
SMemT n_preW (((EMemT n_e) *t (EMemT n_e)) /t (((((EUn D2T (ELit (4 # 1))) *t (EMemT n_MW)) *t (EMemT n_MW)) *t (EMemT n_SW)) *t (EMemT n_SW))).
(** ulnd::set_masses: SM/ulnd.cpp 46-56 *)
Definition ulnd_set_masses : meth := mkMeth n_set_masses [(n_massu, PkT); (n_massd, PkT); (n_masstau, PkT); (n_massW, PkT)]
(SMemT n_mu (ELocT n_massu);,
SMemT n_md (ELocT n_massd);,
SMemT n_ml (ELocT n_masstau);,
SMemT n_MW (ELocT n_massW);,
SSetMass 0 (EMemT n_mu);,
SSetMass 1 (EMemT n_ml);,
SSetMass 3 (EMemT n_md);,
SPropMass n_prop (ELocT n_massW);,
SMemT n_preW (((EMemT n_e) *t (EMemT n_e)) /t (((((EUn D2T (ELit (4 # 1))) *t (EMemT n_MW)) *t (EMemT n_MW)) *t (EMemT n_SW)) *t (EMemT n_SW)))).
(** ulnd::set_momenta: SM/ulnd.cpp 57-75 *)
Definition ulnd_set_momenta : meth := mkMeth n_set_momenta [(n_mom1, PkMom); (n_mom2, PkMom); (n_mom3, PkMom); (n_mom4, PkMom)]
(SSetMomentum 0 n_mom1;,
SSetMomentum 1 n_mom2;,
SSetMomentum 2 n_mom3;,
SSetMomentum 3 n_mom4;,
SUpdate n_a14a;,
SUpdate n_s14s;,
SUpdate n_a23a;,
SUpdate n_s12s;,
SUpdate n_a12a;,
SUpdate n_a34a;,
SDeclT n_propP 4;,
(SFor n_j (EInt 0) (EBin (CmpI CLt) (ELocI n_j) (EInt 4)) (EBin (OpI IAdd) (ELocI n_j) (EInt 1))
(SArrT n_propP (AVar n_j) ((EArrT n_mom1 (AVar n_j)) -t (EArrT n_mom4 (AVar n_j)))));,
SMemC n_pDenU (EDen n_prop n_propP)).
(** ulnd::amp: SM/ulnd.cpp 80-93 *)
Definition ulnd_amp : meth := mkMeth n_amp [(n_ds1, PkI); (n_ds2, PkI); (n_ds4, PkI)]
(SReturnC ((((EUn NegT (EMemT n_preW)) *t (EUn D2T (ELit (2 # 1)))) *tc (((((((EUn D2T (ELit (2 # 1))) *t (EMemT n_MW)) *t (EMemT n_MW)) *tc (EV n_s12s [(AVar n_ds1); (AVar n_ds2)])) *c (EV n_a34a [(AVar n_ds4)])) +c ((((EMemT n_mu) *t (EMemT n_ml)) *tc (EV n_a23a [(AVar n_ds2)])) *c (EV n_a14a [(AVar n_ds1); (AVar n_ds4)]))) +c ((((EMemT n_ml) *t (EMemT n_md)) *tc (EV n_a23a [(AVar n_ds2)])) *c (EV n_s14s [(AVar n_ds1); (AVar n_ds4)])))) /c (EMemC n_pDenU))).
(** ulnd::amp2: SM/ulnd.cpp 96-111 *)
Definition ulnd_amp2 : meth := mkMeth n_amp2 []
(SLoc rT n_amp2 (EUn I2T (EInt 0));,
SLoc rT n_three (EUn I2T (EInt 3));,
SDecl rC n_M;,
(SFor n_j1 (EUn NegI (EInt 1)) (EBin (CmpI CLe) (ELocI n_j1) (EInt 1)) (EBin (OpI IAdd) (ELocI n_j1) (EInt 2))
(SFor n_j2 (EUn NegI (EInt 1)) (EBin (CmpI CLe) (ELocI n_j2) (EInt 1)) (EBin (OpI IAdd) (ELocI n_j2) (EInt 2))
(SFor n_j4 (EUn NegI (EInt 1)) (EBin (CmpI CLe) (ELocI n_j4) (EInt 1)) (EBin (OpI IAdd) (ELocI n_j4) (EInt 2))
(SLoc rC n_M (ECall n_amp [(AVar n_j1); (AVar n_j2); (AVar n_j4)]);,
SLoc rT n_amp2 ((ELocT n_amp2) +t ((ELocT n_three) *t (EUn Pow2T (EUn AbsC (ELocC n_M)))))))));,
SReturnT ((ELocT n_amp2) /t (EUn D2T (ELit (12 # 1))))).
(** members: SM/include/ulnd.h 26-33; initialisers: SM/ulnd.cpp 32-42 *)
Definition ulnd : cls := mkCls "ulnd"
[(n_e, KT);
(n_mu, KT);
(n_md, KT);
(n_ml, KT);
(n_MW, KT);
(n_WW, KT);
(n_SW, KT);
(n_preW, KT);
(n_p1, (KPart 0));
(n_p2, (KPart 1));
(n_p3, (KPart 2));
(n_p4, (KPart 3));
(n_prop, KProp);
(n_pDenU, KC);
(n_a14a, KSprod);
(n_s14s, KSprod);
(n_a23a, KSprod);
(n_a34a, KSprod);
(n_s12s, KSprod);
(n_a12a, KSprod)]
[n_echarge; n_massu; n_massd; n_masstau; n_massW; n_widthW; n_sinW]
[(n_e, NT (ELocT n_echarge));
(n_mu, NT (ELocT n_massu));
(n_md, NT (ELocT n_massd));
(n_ml, NT (ELocT n_masstau));
(n_MW, NT (ELocT n_massW));
(n_WW, NT (ELocT n_widthW));
(n_SW, NT (ELocT n_sinW));
(n_prop, NProp (ELocT n_massW) (ELocT n_widthW));
(n_p1, NPart (EMemT n_mu));
(n_p2, NPart (EMemT n_ml));
(n_p3, NPart (EUn I2T (EInt 0)));
(n_p4, NPart (EMemT n_md));
(n_a14a, NSprod true 0 [] 3);
(n_s14s, NSprod false 0 [] 3);
(n_a23a, NSprod true 1 [] 2);
(n_s12s, NSprod false 0 [] 1);
(n_a12a, NSprod true 0 [] 1);
(n_a34a, NSprod true 2 [] 3)]
ulnd_ctor
[ulnd_set_masses; ulnd_set_momenta; ulnd_amp; ulnd_amp2].

(** unnu::unnu: SM/unnu.cpp 32-57 *)
Definition unnu_ctor : stmt :=
(SMemT n_MZ ((EMemT n_MW) /t (EMemT n_CW));,
SPropMass n_propZ (EMemT n_MZ);,
SMemT n_gLu ((EUn D2T (ELit (1 # 1))) -t (((EUn D2T ((ELit (4 # 1)) /d (ELit (3 # 1)))) *t (EMemT n_SW)) *t (EMemT n_SW)));,
SMemT n_gRu (((EUn D2T ((EUn NegD (ELit (4 # 1))) /d (ELit (3 # 1)))) *t (EMemT n_SW)) *t (EMemT n_SW));,
SMemT n_gLn (EUn D2T (ELit (1 # 1)));,
SMemT n_gRn (EUn I2T (EInt 0));,
SMemT n_preZ (((EMemT n_e) *t (EMemT n_e)) /t (((((EUn D2T (ELit (4 # 1))) *t (EMemT n_CW)) *t (EMemT n_CW)) *t (EMemT n_SW)) *t (EMemT n_SW)))).
(** unnu::set_masses: SM/unnu.cpp 58-65 *)
Definition unnu_set_masses : meth := mkMeth n_set_masses [(n_massu, PkT); (n_massW, PkT)]
(SMemT n_mu (ELocT n_massu);,
SMemT n_MW (ELocT n_massW);,
SMemT n_MZ ((EMemT n_MW) /t (EMemT n_CW));,
SPropMass n_propZ (EMemT n_MZ);,
SSetMass 0 (EMemT n_mu);,
SSetMass 3 (EMemT n_mu)).
(** unnu::set_momenta: SM/unnu.cpp 66-89 *)
Definition unnu_set_momenta : meth := mkMeth n_set_momenta [(n_mom1, PkMom); (n_mom2, PkMom); (n_mom3, PkMom); (n_mom4, PkMom)]
(SSetMomentum 0 n_mom1;,
SSetMomentum 1 n_mom2;,
SSetMomentum 2 n_mom3;,
SSetMomentum 3 n_mom4;,
SUpdate n_a13a;,
SUpdate n_s13s;,
SUpdate n_a14a;,
SUpdate n_s14s;,
SUpdate n_a23a;,
SUpdate n_s23s;,
SUpdate n_a24a;,
SUpdate n_s24s;,
SUpdate n_s12s;,
SUpdate n_a12a;,
SUpdate n_s34s;,
SUpdate n_a34a;,
SDeclT n_propP 4;,
(SFor n_j (EInt 0) (EBin (CmpI CLt) (ELocI n_j) (EInt 4)) (EBin (OpI IAdd) (ELocI n_j) (EInt 1))
(SArrT n_propP (AVar n_j) ((EArrT n_mom1 (AVar n_j)) -t (EArrT n_mom4 (AVar n_j)))));,
SMemC n_pDenUZ (EDen n_propZ n_propP)).
(** unnu::amp: SM/unnu.cpp 94-119 *)
Definition unnu_amp : meth := mkMeth n_amp [(n_ds1, PkI); (n_ds4, PkI)]
(SLoc rT n_two (EUn I2T (EInt 2));,
SLoc rC n_amplitude (EBin OpTTC (EUn I2T (EInt 0)) (EUn I2T (EInt 0)));,
SLoc rC n_amplitude ((ELocC n_amplitude) +c ((((ELocT n_two) *t (EMemT n_preZ)) *tc (((((EMemT n_gLu) *t (EMemT n_gLn)) *tc (EV n_s34s [(AVar n_ds4)])) *c (EV n_a12a [(AVar n_ds1)])) -c ((((EMemT n_gLn) *t (EMemT n_gRu)) *tc (EV n_s13s [(AVar n_ds1)])) *c (EV n_a24a [(AVar n_ds4)])))) /c (EMemC n_pDenUZ)));,
SReturnC (ELocC n_amplitude)).
(** unnu::amp2: SM/unnu.cpp 122-136 *)
Definition unnu_amp2 : meth := mkMeth n_amp2 []
(SLoc rT n_amp2 (EUn I2T (EInt 0));,
SLoc rT n_two (EUn I2T (EInt 2));,
SLoc rT n_three (EUn I2T (EInt 3));,
SDecl rC n_M;,
(SFor n_j1 (EUn NegI (EInt 1)) (EBin (CmpI CLe) (ELocI n_j1) (EInt 1)) (EBin (OpI IAdd) (ELocI n_j1) (EInt 2))
(SFor n_j2 (EUn NegI (EInt 1)) (EBin (CmpI CLe) (ELocI n_j2) (EInt 1)) (EBin (OpI IAdd) (ELocI n_j2) (EInt 2))
(SLoc rC n_M (ECall n_amp [(AVar n_j1); (AVar n_j2)]);,
SLoc rT n_amp2 ((ELocT n_amp2) +t ((ELocT n_three) *t (EUn Pow2T (EUn AbsC (ELocC n_M))))))));,
SReturnT ((ELocT n_amp2) /t (EUn D2T (ELit (6 # 1))))).
(** members: SM/include/unnu.h 26-33; initialisers: SM/unnu.cpp 32-47 *)
Definition unnu : cls := mkCls "unnu"
[(n_e, KT);
(n_mu, KT);
(n_MZ, KT);
(n_WZ, KT);
(n_MW, KT);
(n_SW, KT);
(n_CW, KT);
(n_p1, (KPart 0));
(n_p2, (KPart 1));
(n_p3, (KPart 2));
(n_p4, (KPart 3));
(n_propZ, KProp);
(n_pDenUZ, KC);
(n_a13a, KSprod);
(n_s13s, KSprod);
(n_a14a, KSprod);
(n_s14s, KSprod);
(n_a23a, KSprod);
(n_s23s, KSprod);
(n_a24a, KSprod);
(n_s24s, KSprod);
(n_s12s, KSprod);
(n_a12a, KSprod);
(n_s34s, KSprod);
(n_a34a, KSprod);
(n_preh, KT);
(n_gLu, KT);
(n_gRu, KT);
(n_gLn, KT);
(n_gRn, KT);
(n_preZ, KT);
(n_preZ0, KT)]
[n_echarge; n_massu; n_massW; n_sinW; n_widthZ]
[(n_e, NT (ELocT n_echarge));
(n_mu, NT (ELocT n_massu));
(n_MW, NT (ELocT n_massW));
(n_SW, NT (ELocT n_sinW));
(n_CW, NT (EUn SqrtT ((EUn D2T (ELit (1 # 1))) -t ((ELocT n_sinW) *t (ELocT n_sinW)))));
(n_WZ, NT (ELocT n_widthZ));
(n_p1, NPart (EMemT n_mu));
(n_p2, NPart (EUn I2T (EInt 0)));
(n_p3, NPart (EUn I2T (EInt 0)));
(n_p4, NPart (EMemT n_mu));
(n_a13a, NSprod true 0 [] 2);
(n_s13s, NSprod false 0 [] 2);
(n_a14a, NSprod true 0 [] 3);
(n_s14s, NSprod false 0 [] 3);
(n_a23a, NSprod true 1 [] 2);
(n_s23s, NSprod false 1 [] 2);
(n_a24a, NSprod true 1 [] 3);
(n_s24s, NSprod false 1 [] 3);
(n_s12s, NSprod false 0 [] 1);
(n_a12a, NSprod true 0 [] 1);
(n_s34s, NSprod false 2 [] 3);
(n_a34a, NSprod true 2 [] 3)]
unnu_ctor
[unnu_set_masses; unnu_set_momenta; unnu_amp; unnu_amp2].

(** usus::usus: SM/usus.cpp 32-60 *)
Definition usus_ctor : stmt :=
(SMemT n_MZ ((EMemT n_MW) /t (EMemT n_CW));,
SPropMass n_propZ (EMemT n_MZ);,
SMemT n_preh (((((EMemT n_e) *t (EMemT n_e)) *t (EMemT n_mu)) *t (EMemT n_ms)) /t (((((EUn D2T (ELit (4 # 1))) *t (EMemT n_MW)) *t (EMemT n_MW)) *t (EMemT n_SW)) *t (EMemT n_SW)));,
SMemT n_gLu ((EUn D2T (ELit (1 # 1))) -t (((EUn D2T ((ELit (4 # 1)) /d (ELit (3 # 1)))) *t (EMemT n_SW)) *t (EMemT n_SW)));,
SMemT n_gRu (((EUn D2T ((EUn NegD (ELit (4 # 1))) /d (ELit (3 # 1)))) *t (EMemT n_SW)) *t (EMemT n_SW));,
SMemT n_gLd ((EUn D2T (EUn NegD (ELit (1 # 1)))) +t (((EUn D2T ((ELit (2 # 1)) /d (ELit (3 # 1)))) *t (EMemT n_SW)) *t (EMemT n_SW)));,
SMemT n_gRd (((EUn D2T ((ELit (2 # 1)) /d (ELit (3 # 1)))) *t (EMemT n_SW)) *t (EMemT n_SW));,
SMemT n_preZ (((EMemT n_e) *t (EMemT n_e)) /t (((((EUn D2T (ELit (4 # 1))) *t (EMemT n_CW)) *t (EMemT n_CW)) *t (EMemT n_SW)) *t (EMemT n_SW)));,
SMemT n_preZ0 (((((((EMemT n_preZ) *t ((EMemT n_gLu) -t (EMemT n_gRu))) *t ((EMemT n_gLd) -t (EMemT n_gRd))) *t (EMemT n_mu)) *t (EMemT n_ms)) /t (EMemT n_MZ)) /t (EMemT n_MZ))).
(** usus::set_masses: SM/usus.cpp 61-75 *)
Definition usus_set_masses : meth := mkMeth n_set_masses [(n_massu, PkT); (n_masss, PkT); (n_massh, PkT); (n_massW, PkT)]
(SMemT n_mu (ELocT n_massu);,
SMemT n_ms (ELocT n_masss);,
SMemT n_mh (ELocT n_massh);,
SPropMass n_proph (EMemT n_mh);,
SMemT n_MW (ELocT n_massW);,
SMemT n_MZ ((EMemT n_MW) /t (EMemT n_CW));,
SPropMass n_propZ (EMemT n_MZ);,
SSetMass 0 (EMemT n_mu);,
SSetMass 1 (EMemT n_ms);,
SSetMass 2 (EMemT n_mu);,
SSetMass 3 (EMemT n_ms);,
SMemT n_preh (((((EMemT n_e) *t (EMemT n_e)) *t (EMemT n_mu)) *t (EMemT n_ms)) /t (((((EUn I2T (EInt 4)) *t (EMemT n_MW)) *t (EMemT n_MW)) *t (EMemT n_SW)) *t (EMemT n_SW)));,
SMemT n_preZ0 (((((((EMemT n_preZ) *t ((EMemT n_gLu) -t (EMemT n_gRu))) *t ((EMemT n_gLd) -t (EMemT n_gRd))) *t (EMemT n_mu)) *t (EMemT n_ms)) /t (EMemT n_MZ)) /t (EMemT n_MZ))).
(** usus::set_momenta: SM/usus.cpp 76-101 *)
Definition usus_set_momenta : meth := mkMeth n_set_momenta [(n_mom1, PkMom); (n_mom2, PkMom); (n_mom3, PkMom); (n_mom4, PkMom)]
(SSetMomentum 0 n_mom1;,
SSetMomentum 1 n_mom2;,
SSetMomentum 2 n_mom3;,
SSetMomentum 3 n_mom4;,
SUpdate n_a13a;,
SUpdate n_s13s;,
SUpdate n_a14a;,
SUpdate n_s14s;,
SUpdate n_a23a;,
SUpdate n_s23s;,
SUpdate n_a24a;,
SUpdate n_s24s;,
SUpdate n_s12s;,
SUpdate n_a12a;,
SUpdate n_s34s;,
SUpdate n_a34a;,
SDeclT n_propP 4;,
(SFor n_j (EInt 0) (EBin (CmpI CLt) (ELocI n_j) (EInt 4)) (EBin (OpI IAdd) (ELocI n_j) (EInt 1))
(SArrT n_propP (AVar n_j) ((EArrT n_mom1 (AVar n_j)) -t (EArrT n_mom3 (AVar n_j)))));,
SMemC n_pDenTAG (EDen n_propAG n_propP);,
SMemC n_pDenTh (EDen n_proph n_propP);,
SMemC n_pDenTZ (EDen n_propZ n_propP)).
(** usus::amp_gluon: SM/usus.cpp 109-127 *)
Definition usus_amp_gluon : meth := mkMeth n_amp_gluon [(n_ds1, PkI); (n_ds2, PkI); (n_ds3, PkI); (n_ds4, PkI)]
(SLoc rT n_two (EUn I2T (EInt 2));,
SLoc rC n_amplitude (EBin OpTTC (EUn I2T (EInt 0)) (EUn I2T (EInt 0)));,
SLoc rC n_amplitude (((((EUn NegT (ELocT n_two)) *t (EMemT n_gs)) *t (EMemT n_gs)) *tc (((((EV n_a14a [(AVar n_ds1); (AVar n_ds4)]) *c (EV n_s23s [(AVar n_ds2); (AVar n_ds3)])) +c ((EV n_a12a [(AVar n_ds1); (AVar n_ds2)]) *c (EV n_s34s [(AVar n_ds3); (AVar n_ds4)]))) +c ((EV n_s14s [(AVar n_ds1); (AVar n_ds4)]) *c (EV n_a23a [(AVar n_ds2); (AVar n_ds3)]))) +c ((EV n_s12s [(AVar n_ds1); (AVar n_ds2)]) *c (EV n_a34a [(AVar n_ds3); (AVar n_ds4)])))) /c (EMemC n_pDenTAG));,
SReturnC (ELocC n_amplitude)).
(** usus::amp_rest: SM/usus.cpp 128-184 *)
Definition usus_amp_rest : meth := mkMeth n_amp_rest [(n_ds1, PkI); (n_ds2, PkI); (n_ds3, PkI); (n_ds4, PkI)]
(SLoc rT n_two (EUn I2T (EInt 2));,
SLoc rC n_amplitude (EBin OpTTC (EUn I2T (EInt 0)) (EUn I2T (EInt 0)));,
SLoc rC n_amplitude (((((((ELocT n_two) *t (EMemT n_e)) *t (EMemT n_e)) *t (EUn D2T (ELit (2 # 1)))) /t (EUn D2T (ELit (9 # 1)))) *tc (((((EV n_a14a [(AVar n_ds1); (AVar n_ds4)]) *c (EV n_s23s [(AVar n_ds2); (AVar n_ds3)])) +c ((EV n_a12a [(AVar n_ds1); (AVar n_ds2)]) *c (EV n_s34s [(AVar n_ds3); (AVar n_ds4)]))) +c ((EV n_s14s [(AVar n_ds1); (AVar n_ds4)]) *c (EV n_a23a [(AVar n_ds2); (AVar n_ds3)]))) +c ((EV n_s12s [(AVar n_ds1); (AVar n_ds2)]) *c (EV n_a34a [(AVar n_ds3); (AVar n_ds4)])))) /c (EMemC n_pDenTAG));,
SLoc rC n_amplitude ((ELocC n_amplitude) +c ((((EUn NegT (EMemT n_preh)) *tc ((EV n_s13s [(AVar n_ds1); (AVar n_ds3)]) -c (EV n_a13a [(AVar n_ds1); (AVar n_ds3)]))) *c ((EV n_s24s [(AVar n_ds2); (AVar n_ds4)]) -c (EV n_a24a [(AVar n_ds2); (AVar n_ds4)]))) /c (EMemC n_pDenTh)));,
SLoc rC n_amplitude ((ELocC n_amplitude) +c (((((EMemT n_preZ0) *tc ((EV n_a13a [(AVar n_ds1); (AVar n_ds3)]) +c (EV n_s13s [(AVar n_ds1); (AVar n_ds3)]))) *c ((EV n_a24a [(AVar n_ds2); (AVar n_ds4)]) +c (EV n_s24s [(AVar n_ds2); (AVar n_ds4)]))) /c (EMemC n_pDenTZ)) -c ((((ELocT n_two) *t (EMemT n_preZ)) *tc (((((((EMemT n_gLu) *t (EMemT n_gLd)) *tc (EV n_s34s [(AVar n_ds3); (AVar n_ds4)])) *c (EV n_a12a [(AVar n_ds1); (AVar n_ds2)])) +c ((((EMemT n_gLd) *t (EMemT n_gRu)) *tc (EV n_s14s [(AVar n_ds1); (AVar n_ds4)])) *c (EV n_a23a [(AVar n_ds2); (AVar n_ds3)]))) +c ((((EMemT n_gLu) *t (EMemT n_gRd)) *tc (EV n_s23s [(AVar n_ds2); (AVar n_ds3)])) *c (EV n_a14a [(AVar n_ds1); (AVar n_ds4)]))) +c ((((EMemT n_gRu) *t (EMemT n_gRd)) *tc (EV n_s12s [(AVar n_ds1); (AVar n_ds2)])) *c (EV n_a34a [(AVar n_ds3); (AVar n_ds4)])))) /c (EMemC n_pDenTZ))));,
SReturnC (ELocC n_amplitude)).
(** usus::amp2: SM/usus.cpp 187-206 *)
Definition usus_amp2 : meth := mkMeth n_amp2 []
(SLoc rT n_amp2 (EUn I2T (EInt 0));,
SLoc rT n_two (EUn I2T (EInt 2));,
SLoc rT n_three (EUn I2T (EInt 3));,
SLoc rT n_nine (EUn I2T (EInt 9));,
SDecl rC n_M_rest;,
SDecl rC n_M_gluon;,
(SFor n_j1 (EUn NegI (EInt 1)) (EBin (CmpI CLe) (ELocI n_j1) (EInt 1)) (EBin (OpI IAdd) (ELocI n_j1) (EInt 2))
(SFor n_j2 (EUn NegI (EInt 1)) (EBin (CmpI CLe) (ELocI n_j2) (EInt 1)) (EBin (OpI IAdd) (ELocI n_j2) (EInt 2))
(SFor n_j3 (EUn NegI (EInt 1)) (EBin (CmpI CLe) (ELocI n_j3) (EInt 1)) (EBin (OpI IAdd) (ELocI n_j3) (EInt 2))
(SFor n_j4 (EUn NegI (EInt 1)) (EBin (CmpI CLe) (ELocI n_j4) (EInt 1)) (EBin (OpI IAdd) (ELocI n_j4) (EInt 2))
(SLoc rC n_M_rest (ECall n_amp_rest [(AVar n_j1); (AVar n_j2); (AVar n_j3); (AVar n_j4)]);,
SLoc rC n_M_gluon (ECall n_amp_gluon [(AVar n_j1); (AVar n_j2); (AVar n_j3); (AVar n_j4)]);,
SLoc rT n_amp2 ((ELocT n_amp2) +t ((ELocT n_nine) *t (EUn Pow2T (EUn AbsC (ELocC n_M_rest)))));,
SLoc rT n_amp2 ((ELocT n_amp2) +t ((ELocT n_two) *t (EUn Pow2T (EUn AbsC (ELocC n_M_gluon))))))))));,
SReturnT ((ELocT n_amp2) /t (EUn D2T (ELit (36 # 1))))).
(** members: SM/include/usus.h 26-33; initialisers: SM/usus.cpp 32-48 *)
Definition usus : cls := mkCls "usus"
[(n_e, KT);
(n_gs, KT);
(n_mu, KT);
(n_ms, KT);
(n_mh, KT);
(n_wh, KT);
(n_MZ, KT);
(n_WZ, KT);
(n_MW, KT);
(n_SW, KT);
(n_CW, KT);
(n_p1, (KPart 0));
(n_p2, (KPart 1));
(n_p3, (KPart 2));
(n_p4, (KPart 3));
(n_propAG, KProp);
(n_proph, KProp);
(n_propZ, KProp);
(n_pDenTAG, KC);
(n_pDenTh, KC);
(n_pDenTZ, KC);
(n_a13a, KSprod);
(n_s13s, KSprod);
(n_a14a, KSprod);
(n_s14s, KSprod);
(n_a23a, KSprod);
(n_s23s, KSprod);
(n_a24a, KSprod);
(n_s24s, KSprod);
(n_s12s, KSprod);
(n_a12a, KSprod);
(n_s34s, KSprod);
(n_a34a, KSprod);
(n_preh, KT);
(n_gLu, KT);
(n_gRu, KT);
(n_gLd, KT);
(n_gRd, KT);
(n_preZ, KT);
(n_preZ0, KT)]
[n_echarge; n_gscharge; n_massu; n_masss; n_massh; n_widthh; n_massW; n_sinW; n_widthZ]
[(n_e, NT (ELocT n_echarge));
(n_gs, NT (ELocT n_gscharge));
(n_mu, NT (ELocT n_massu));
(n_ms, NT (ELocT n_masss));
(n_mh, NT (ELocT n_massh));
(n_wh, NT (ELocT n_widthh));
(n_MW, NT (ELocT n_massW));
(n_SW, NT (ELocT n_sinW));
(n_CW, NT (EUn SqrtT ((EUn D2T (ELit (1 # 1))) -t ((ELocT n_sinW) *t (ELocT n_sinW)))));
(n_WZ, NT (ELocT n_widthZ));
(n_propAG, NProp (EUn I2T (EInt 0)) (EUn I2T (EInt 0)));
(n_proph, NProp (EMemT n_mh) (EMemT n_wh));
(n_p1, NPart (EMemT n_mu));
(n_p2, NPart (EMemT n_ms));
(n_p3, NPart (EMemT n_mu));
(n_p4, NPart (EMemT n_ms));
(n_a13a, NSprod true 0 [] 2);
(n_s13s, NSprod false 0 [] 2);
(n_a14a, NSprod true 0 [] 3);
(n_s14s, NSprod false 0 [] 3);
(n_a23a, NSprod true 1 [] 2);
(n_s23s, NSprod false 1 [] 2);
(n_a24a, NSprod true 1 [] 3);
(n_s24s, NSprod false 1 [] 3);
(n_s12s, NSprod false 0 [] 1);
(n_a12a, NSprod true 0 [] 1);
(n_s34s, NSprod false 2 [] 3);
(n_a34a, NSprod true 2 [] 3)]
usus_ctor
[usus_set_masses; usus_set_momenta; usus_amp_gluon; usus_amp_rest; usus_amp2].

(** uuAA::uuAA: SM/uuAA.cpp 32-54 *)
Definition uuAA_ctor : stmt :=
(SLoc rT n_two (EUn I2T (EInt 2));,
SMemT n_sqrt2 (EUn SqrtT (ELocT n_two));,
SParticle 0 (EMemT n_mu);,
SParticle 1 (EMemT n_mu);,
SParticle 2 (EUn I2T (EInt 0));,
SParticle 3 (EUn I2T (EInt 0));,
SSprod n_s34s false 2 [] 3;,
SSprod n_a34a true 2 [] 3;,
SSprod n_s12s false 0 [] 1;,
SSprod n_a12a true 0 [] 1;,
SSprod n_s13s false 0 [] 2;,
SSprod n_a13a true 0 [] 2;,
SSprod n_s24s false 1 [] 3;,
SSprod n_a24a true 1 [] 3;,
SSprod n_s23s false 1 [] 2;,
SSprod n_a23a true 1 [] 2;,
SSprod n_s14s false 0 [] 3;,
SSprod n_a14a true 0 [] 3;,
SSprod n_s314a false 2 [0] 3;,
SSprod n_s413a false 3 [0] 2).
(** uuAA::set_masses: SM/uuAA.cpp 55-60 *)
Definition uuAA_set_masses : meth := mkMeth n_set_masses [(n_massu, PkT)]
(SMemT n_mu (ELocT n_massu);,
SSetMass 0 (EMemT n_mu);,
SSetMass 1 (EMemT n_mu);,
SPropMass n_prop (EMemT n_mu)).
(** uuAA::set_momenta: SM/uuAA.cpp 61-90 *)
Definition uuAA_set_momenta : meth := mkMeth n_set_momenta [(n_mom1, PkMom); (n_mom2, PkMom); (n_mom3, PkMom); (n_mom4, PkMom)]
(SSetMomentum 0 n_mom1;,
SSetMomentum 1 n_mom2;,
SSetMomentum 2 n_mom3;,
SSetMomentum 3 n_mom4;,
SUpdate n_s34s;,
SUpdate n_a34a;,
SUpdate n_s12s;,
SUpdate n_a12a;,
SUpdate n_s13s;,
SUpdate n_a13a;,
SUpdate n_s24s;,
SUpdate n_a24a;,
SUpdate n_s23s;,
SUpdate n_a23a;,
SUpdate n_s14s;,
SUpdate n_a14a;,
SUpdate n_s314a;,
SUpdate n_s413a;,
SDeclT n_propTP 4;,
SDeclT n_propUP 4;,
(SFor n_j (EInt 0) (EBin (CmpI CLt) (ELocI n_j) (EInt 4)) (EBin (OpI IAdd) (ELocI n_j) (EInt 1))
(SArrT n_propTP (AVar n_j) ((EArrT n_mom1 (AVar n_j)) -t (EArrT n_mom3 (AVar n_j)));,
SArrT n_propUP (AVar n_j) ((EArrT n_mom1 (AVar n_j)) -t (EArrT n_mom4 (AVar n_j)))));,
SMemC n_pDenT (EDen n_prop n_propTP);,
SMemC n_pDenU (EDen n_prop n_propUP)).
(** uuAA::amp: SM/uuAA.cpp 97-116 *)
Definition uuAA_amp : meth := mkMeth n_amp [(n_ds1, PkI); (n_ds2, PkI); (n_ds3, PkI); (n_ds4, PkI)]
((SIf (EAnd (EBin (CmpI CGt) (ELocI n_ds3) (EInt 0)) (EBin (CmpI CGt) (ELocI n_ds4) (EInt 0)))
(SReturnC (((((((((((EUn D2T (ELit (2 # 1))) *t (EMemT n_e)) *t (EMemT n_e)) *t (EMemT n_Qu)) *t (EMemT n_Qu)) *t (EMemT n_mu)) *tc (EV n_s34s [])) *c (EV n_s34s [])) *c (EV n_a12a [(AVar n_ds1); (AVar n_ds2)])) /c (EMemC n_pDenT)) /c (EMemC n_pDenU)))
((SIf (EAnd (EBin (CmpI CLt) (ELocI n_ds3) (EInt 0)) (EBin (CmpI CLt) (ELocI n_ds4) (EInt 0)))
(SReturnC (((((((((((EUn D2T (ELit (2 # 1))) *t (EMemT n_e)) *t (EMemT n_e)) *t (EMemT n_Qu)) *t (EMemT n_Qu)) *t (EMemT n_mu)) *tc (EV n_a34a [])) *c (EV n_a34a [])) *c (EV n_s12s [(AVar n_ds1); (AVar n_ds2)])) /c (EMemC n_pDenT)) /c (EMemC n_pDenU)))
((SIf (EAnd (EBin (CmpI CGt) (ELocI n_ds3) (EInt 0)) (EBin (CmpI CLt) (ELocI n_ds4) (EInt 0)))
(SReturnC (((((((((EUn D2T (ELit (2 # 1))) *t (EMemT n_e)) *t (EMemT n_e)) *t (EMemT n_Qu)) *t (EMemT n_Qu)) *tc (((EV n_s13s [(AVar n_ds1)]) *c (EV n_a24a [(AVar n_ds2)])) +c ((EV n_s23s [(AVar n_ds2)]) *c (EV n_a14a [(AVar n_ds1)])))) *c (EV n_s314a [])) /c (EMemC n_pDenT)) /c (EMemC n_pDenU)))
((SIf (EAnd (EBin (CmpI CLt) (ELocI n_ds3) (EInt 0)) (EBin (CmpI CGt) (ELocI n_ds4) (EInt 0)))
(SReturnC (((((((((EUn D2T (ELit (2 # 1))) *t (EMemT n_e)) *t (EMemT n_e)) *t (EMemT n_Qu)) *t (EMemT n_Qu)) *tc (((EV n_a13a [(AVar n_ds1)]) *c (EV n_s24s [(AVar n_ds2)])) +c ((EV n_a23a [(AVar n_ds2)]) *c (EV n_s14s [(AVar n_ds1)])))) *c (EV n_s413a [])) /c (EMemC n_pDenT)) /c (EMemC n_pDenU)))
(SSkip))))))));,
SReturnC (EBin OpTTC (EUn I2T (EInt 0)) (EUn I2T (EInt 0)))).
(** uuAA::amp2: SM/uuAA.cpp 118-134 *)
Definition uuAA_amp2 : meth := mkMeth n_amp2 []
(SLoc rT n_amp2 (EUn I2T (EInt 0));,
SDecl rC n_M;,
(SFor n_j1 (EUn NegI (EInt 1)) (EBin (CmpI CLe) (ELocI n_j1) (EInt 1)) (EBin (OpI IAdd) (ELocI n_j1) (EInt 2))
(SFor n_j2 (EUn NegI (EInt 1)) (EBin (CmpI CLe) (ELocI n_j2) (EInt 1)) (EBin (OpI IAdd) (ELocI n_j2) (EInt 2))
(SFor n_j3 (EUn NegI (EInt 2)) (EBin (CmpI CLe) (ELocI n_j3) (EInt 2)) (EBin (OpI IAdd) (ELocI n_j3) (EInt 4))
(SFor n_j4 (EUn NegI (EInt 2)) (EBin (CmpI CLe) (ELocI n_j4) (EInt 2)) (EBin (OpI IAdd) (ELocI n_j4) (EInt 4))
(SLoc rC n_M (ECall n_amp [(AVar n_j1); (AVar n_j2); (AVar n_j3); (AVar n_j4)]);,
SLoc rT n_amp2 ((ELocT n_amp2) +t ((EUn D2T (ELit (3 # 1))) *t (EUn Pow2T (EUn AbsC (ELocC n_M))))))))));,
SReturnT ((ELocT n_amp2) /t (EUn D2T (ELit (72 # 1))))).
(** members: SM/include/uuAA.h 26-32; initialisers: SM/uuAA.cpp 32-33 *)
Definition uuAA : cls := mkCls "uuAA"
[(n_e, KT);
(n_Qu, KT);
(n_mu, KT);
(n_p1, (KPart 0));
(n_p2, (KPart 1));
(n_p3, (KPart 2));
(n_p4, (KPart 3));
(n_prop, KProp);
(n_pDenT, KC);
(n_pDenU, KC);
(n_s34s, KSprod);
(n_a34a, KSprod);
(n_s12s, KSprod);
(n_a12a, KSprod);
(n_s13s, KSprod);
(n_a13a, KSprod);
(n_s24s, KSprod);
(n_a24a, KSprod);
(n_s23s, KSprod);
(n_a23a, KSprod);
(n_s14s, KSprod);
(n_a14a, KSprod);
(n_s314a, KSprod);
(n_s413a, KSprod);
(n_sqrt2, KT)]
[n_echarge; n_massu]
[(n_e, NT (ELocT n_echarge));
(n_Qu, NT (EUn D2T ((ELit (2 # 1)) /d (ELit (3 # 1)))));
(n_mu, NT (ELocT n_massu));
(n_prop, NProp (ELocT n_massu) (EUn I2T (EInt 0)))]
uuAA_ctor
[uuAA_set_masses; uuAA_set_momenta; uuAA_amp; uuAA_amp2].

(** uuAh::uuAh: SM/uuAh.cpp 32-54 *)
Definition uuAh_ctor : stmt :=
(SLoc rT n_two (EUn I2T (EInt 2));,
SMemT n_sqrt2 (EUn SqrtT (ELocT n_two));,
SParticle 0 (EMemT n_mu);,
SParticle 1 (EMemT n_mu);,
SParticle 2 (EUn I2T (EInt 0));,
SParticle 3 (EMemT n_mh);,
SSprod n_s13s false 0 [] 2;,
SSprod n_a13a true 0 [] 2;,
SSprod n_s23s false 1 [] 2;,
SSprod n_a23a true 1 [] 2;,
SSprod n_s12s false 0 [] 1;,
SSprod n_a12a true 0 [] 1;,
SSprod n_s342a false 2 [3] 1;,
SSprod n_a342s true 2 [3] 1;,
SSprod n_s341a false 2 [3] 0;,
SSprod n_a341s true 2 [3] 0;,
SSprod n_s3243s false 2 [1; 3] 2;,
SSprod n_a3243a true 2 [1; 3] 2;,
SMemT n_pre (((((EMemT n_e) *t (EMemT n_e)) *t (EMemT n_Qu)) *t (EMemT n_mu)) /t (((EMemT n_sqrt2) *t (EMemT n_MW)) *t (EMemT n_SW)))).
(** uuAh::set_masses: SM/uuAh.cpp 55-64 *)
Definition uuAh_set_masses : meth := mkMeth n_set_masses [(n_massu, PkT); (n_massh, PkT); (n_massW, PkT)]
(SMemT n_mu (ELocT n_massu);,
SMemT n_mh (ELocT n_massh);,
SMemT n_MW (ELocT n_massW);,
SSetMass 0 (EMemT n_mu);,
SSetMass 1 (EMemT n_mu);,
SSetMass 3 (EMemT n_mh);,
SPropMass n_prop (EMemT n_mu);,
SMemT n_pre ((((((EMemT n_sqrt2) *t (EMemT n_e)) *t (EMemT n_e)) *t (EMemT n_Qu)) *t (EMemT n_mu)) /t (((EUn D2T (ELit (2 # 1))) *t (EMemT n_MW)) *t (EMemT n_SW)))).
(** uuAh::set_momenta: SM/uuAh.cpp 65-91 *)
Definition uuAh_set_momenta : meth := mkMeth n_set_momenta [(n_mom1, PkMom); (n_mom2, PkMom); (n_mom3, PkMom); (n_mom4, PkMom)]
(SSetMomentum 0 n_mom1;,
SSetMomentum 1 n_mom2;,
SSetMomentum 2 n_mom3;,
SSetMomentum 3 n_mom4;,
SUpdate n_s13s;,
SUpdate n_a13a;,
SUpdate n_s23s;,
SUpdate n_a23a;,
SUpdate n_s12s;,
SUpdate n_a12a;,
SUpdate n_s342a;,
SUpdate n_a342s;,
SUpdate n_s341a;,
SUpdate n_a341s;,
SUpdate n_s3243s;,
SUpdate n_a3243a;,
SDeclT n_propTP 4;,
SDeclT n_propUP 4;,
(SFor n_j (EInt 0) (EBin (CmpI CLt) (ELocI n_j) (EInt 4)) (EBin (OpI IAdd) (ELocI n_j) (EInt 1))
(SArrT n_propTP (AVar n_j) ((EArrT n_mom1 (AVar n_j)) -t (EArrT n_mom3 (AVar n_j)));,
SArrT n_propUP (AVar n_j) ((EArrT n_mom1 (AVar n_j)) -t (EArrT n_mom4 (AVar n_j)))));,
SMemC n_pDenT (EDen n_prop n_propTP);,
SMemC n_pDenU (EDen n_prop n_propUP)).
(** uuAh::amp: SM/uuAh.cpp 96-110 *)
Definition uuAh_amp : meth := mkMeth n_amp [(n_ds1, PkI); (n_ds2, PkI); (n_ds3, PkI)]
((SIf (EBin (CmpI CGt) (ELocI n_ds3) (EInt 0))
(SReturnC ((((EMemT n_pre) *tc (((((((EUn NegT (EMemT n_mh)) *t (EMemT n_mh)) *tc (EV n_s13s [(AVar n_ds1)])) *c (EV n_s23s [(AVar n_ds2)])) +c (((EMemT n_mu) *tc (EV n_s13s [(AVar n_ds1)])) *c (EV n_s342a [(AVar n_ds2)]))) +c (((EMemT n_mu) *tc (EV n_s23s [(AVar n_ds2)])) *c (EV n_s341a [(AVar n_ds1)]))) +c ((EV n_a12a [(AVar n_ds1); (AVar n_ds2)]) *c (EV n_s3243s [])))) /c (EMemC n_pDenT)) /c (EMemC n_pDenU)))
((SIf (EBin (CmpI CLt) (ELocI n_ds3) (EInt 0))
(SReturnC ((((EMemT n_pre) *tc (((((((EUn NegT (EMemT n_mh)) *t (EMemT n_mh)) *tc (EV n_a13a [(AVar n_ds1)])) *c (EV n_a23a [(AVar n_ds2)])) +c (((EMemT n_mu) *tc (EV n_a13a [(AVar n_ds1)])) *c (EV n_a342s [(AVar n_ds2)]))) +c (((EMemT n_mu) *tc (EV n_a23a [(AVar n_ds2)])) *c (EV n_a341s [(AVar n_ds1)]))) +c ((EV n_s12s [(AVar n_ds1); (AVar n_ds2)]) *c (EV n_a3243a [])))) /c (EMemC n_pDenT)) /c (EMemC n_pDenU)))
(SSkip))));,
SReturnC (EBin OpTTC (EUn I2T (EInt 0)) (EUn I2T (EInt 0)))).
(** uuAh::amp2: SM/uuAh.cpp 113-127 *)
Definition uuAh_amp2 : meth := mkMeth n_amp2 []
(SLoc rT n_amp2 (EUn I2T (EInt 0));,
SDecl rC n_M;,
(SFor n_j1 (EUn NegI (EInt 1)) (EBin (CmpI CLe) (ELocI n_j1) (EInt 1)) (EBin (OpI IAdd) (ELocI n_j1) (EInt 2))
(SFor n_j2 (EUn NegI (EInt 1)) (EBin (CmpI CLe) (ELocI n_j2) (EInt 1)) (EBin (OpI IAdd) (ELocI n_j2) (EInt 2))
(SFor n_j3 (EUn NegI (EInt 2)) (EBin (CmpI CLe) (ELocI n_j3) (EInt 2)) (EBin (OpI IAdd) (ELocI n_j3) (EInt 4))
(SLoc rC n_M (ECall n_amp [(AVar n_j1); (AVar n_j2); (AVar n_j3)]);,
SLoc rT n_amp2 ((ELocT n_amp2) +t ((EUn D2T (ELit (3 # 1))) *t (EUn Pow2T (EUn AbsC (ELocC n_M)))))))));,
SReturnT ((ELocT n_amp2) /t (EUn D2T (ELit (36 # 1))))).
(** members: SM/include/uuAh.h 26-33; initialisers: SM/uuAh.cpp 32-33 *)
Definition uuAh : cls := mkCls "uuAh"
[(n_e, KT);
(n_Qu, KT);
(n_mu, KT);
(n_mh, KT);
(n_MW, KT);
(n_SW, KT);
(n_pre, KT);
(n_p1, (KPart 0));
(n_p2, (KPart 1));
(n_p3, (KPart 2));
(n_p4, (KPart 3));
(n_prop, KProp);
(n_pDenT, KC);
(n_pDenU, KC);
(n_s13s, KSprod);
(n_a13a, KSprod);
(n_s23s, KSprod);
(n_a23a, KSprod);
(n_s12s, KSprod);
(n_a12a, KSprod);
(n_s342a, KSprod);
(n_a342s, KSprod);
(n_s341a, KSprod);
(n_a341s, KSprod);
(n_s3243s, KSprod);
(n_a3243a, KSprod);
(n_sqrt2, KT)]
[n_echarge; n_massu; n_massh; n_massW; n_sinW]
[(n_e, NT (ELocT n_echarge));
(n_Qu, NT (EUn D2T ((ELit (2 # 1)) /d (ELit (3 # 1)))));
(n_mu, NT (ELocT n_massu));
(n_mh, NT (ELocT n_massh));
(n_prop, NProp (ELocT n_massu) (EUn I2T (EInt 0)));
(n_MW, NT (ELocT n_massW));
(n_SW, NT (ELocT n_sinW))]
uuAh_ctor
[uuAh_set_masses; uuAh_set_momenta; uuAh_amp; uuAh_amp2].

(** uuWW::uuWW: SM/uuWW.cpp 32-67 *)
Definition uuWW_ctor : stmt :=
(SLoc rT n_two (EUn I2T (EInt 2));,
SMemT n_sqrt2 (EUn SqrtT (ELocT n_two));,
SMemT n_MZ ((EMemT n_MW) /t (EMemT n_CW));,
SPropNew n_propZ (EMemT n_MZ) (EMemT n_WZ);,
SPropNew n_proph (EMemT n_mh) (EMemT n_wh);,
SParticle 0 (EMemT n_mu);,
SParticle 1 (EMemT n_mu);,
SParticle 2 (EMemT n_MW);,
SParticle 3 (EMemT n_MW);,
SSprod n_s12s false 0 [] 1;,
SSprod n_a12a true 0 [] 1;,
SSprod n_s23s false 1 [] 2;,
SSprod n_a23a true 1 [] 2;,
SSprod n_s13s false 0 [] 2;,
SSprod n_a13a true 0 [] 2;,
SSprod n_s34s false 2 [] 3;,
SSprod n_a34a true 2 [] 3;,
SSprod n_s24s false 1 [] 3;,
SSprod n_a24a true 1 [] 3;,
SSprod n_s14s false 0 [] 3;,
SSprod n_a14a true 0 [] 3;,
SSprod n_s413a false 3 [0] 2;,
SSprod n_s314a false 2 [0] 3;,
SSprod n_s231a false 1 [2] 0;,
SSprod n_s132a false 0 [2] 1;,
SMemT n_pred (((EMemT n_e) *t (EMemT n_e)) /t ((((EMemT n_MW) *t (EMemT n_MW)) *t (EMemT n_SW)) *t (EMemT n_SW)));,
SMemT n_preh ((((EMemT n_e) *t (EMemT n_e)) *t (EMemT n_mu)) /t (((((EUn D2T (ELit (2 # 1))) *t (EMemT n_MW)) *t (EMemT n_MW)) *t (EMemT n_SW)) *t (EMemT n_SW)));,
SMemT n_preZ (((EMemT n_e) *t (EMemT n_e)) /t (((((EUn D2T (ELit (2 # 1))) *t (EMemT n_MW)) *t (EMemT n_MW)) *t (EMemT n_SW)) *t (EMemT n_SW)));,
SMemT n_gL (((((EUn D2T (EUn NegD (ELit (2 # 1)))) *t (EMemT n_Qf)) *t (EMemT n_SW)) *t (EMemT n_SW)) +t (EUn D2T (ELit (1 # 1))));,
SMemT n_gR ((((EUn D2T (EUn NegD (ELit (2 # 1)))) *t (EMemT n_Qf)) *t (EMemT n_SW)) *t (EMemT n_SW))).
(** uuWW::set_masses: SM/uuWW.cpp 68-85 *)
Definition uuWW_set_masses : meth := mkMeth n_set_masses [(n_massu, PkT); (n_massd, PkT); (n_massh, PkT); (n_massW, PkT)]
(SMemT n_mu (ELocT n_massu);,
SMemT n_md (ELocT n_massd);,
SMemT n_mh (ELocT n_massh);,
SMemT n_MW (ELocT n_massW);,
SMemT n_MZ ((EMemT n_MW) /t (EMemT n_CW));,
SSetMass 0 (EMemT n_mu);,
SSetMass 1 (EMemT n_mu);,
SSetMass 2 (EMemT n_MW);,
SSetMass 3 (EMemT n_MW);,
SPropMass n_propd (EMemT n_md);,
SPropMass n_proph (EMemT n_mh);,
SPropMass n_propZ (EMemT n_MZ);,
SMemT n_pred (((EMemT n_e) *t (EMemT n_e)) /t ((((EMemT n_MW) *t (EMemT n_MW)) *t (EMemT n_SW)) *t (EMemT n_SW)));,
SMemT n_preh ((((EMemT n_e) *t (EMemT n_e)) *t (EMemT n_mu)) /t (((((EUn D2T (ELit (2 # 1))) *t (EMemT n_MW)) *t (EMemT n_MW)) *t (EMemT n_SW)) *t (EMemT n_SW)));,
SMemT n_preZ (((EMemT n_e) *t (EMemT n_e)) /t (((((EUn D2T (ELit (2 # 1))) *t (EMemT n_MW)) *t (EMemT n_MW)) *t (EMemT n_SW)) *t (EMemT n_SW)))).
(** uuWW::set_momenta: SM/uuWW.cpp 86-122 *)
Definition uuWW_set_momenta : meth := mkMeth n_set_momenta [(n_mom1, PkMom); (n_mom2, PkMom); (n_mom3, PkMom); (n_mom4, PkMom)]
(SSetMomentum 0 n_mom1;,
SSetMomentum 1 n_mom2;,
SSetMomentum 2 n_mom3;,
SSetMomentum 3 n_mom4;,
SUpdate n_s12s;,
SUpdate n_a12a;,
SUpdate n_s23s;,
SUpdate n_a23a;,
SUpdate n_s13s;,
SUpdate n_a13a;,
SUpdate n_s34s;,
SUpdate n_a34a;,
SUpdate n_s24s;,
SUpdate n_a24a;,
SUpdate n_s14s;,
SUpdate n_a14a;,
SUpdate n_s413a;,
SUpdate n_s314a;,
SUpdate n_s231a;,
SUpdate n_s132a;,
SDeclT n_propSP 4;,
SDeclT n_propTP 4;,
SDeclT n_propUP 4;,
(SFor n_j (EInt 0) (EBin (CmpI CLt) (ELocI n_j) (EInt 4)) (EBin (OpI IAdd) (ELocI n_j) (EInt 1))
(SArrT n_propSP (AVar n_j) ((EArrT n_mom1 (AVar n_j)) +t (EArrT n_mom2 (AVar n_j)));,
SArrT n_propTP (AVar n_j) ((EArrT n_mom1 (AVar n_j)) -t (EArrT n_mom3 (AVar n_j)));,
SArrT n_propUP (AVar n_j) ((EArrT n_mom1 (AVar n_j)) -t (EArrT n_mom4 (AVar n_j)))));,
SMemC n_pDenhS (EDen n_proph n_propSP);,
SMemC n_pDendT (EDen n_propd n_propTP);,
SMemC n_pDendU (EDen n_propd n_propUP);,
SMemC n_pDenZS (EDen n_propZ n_propSP);,
SMemC n_pDenAS (EDen n_propA n_propSP)).
(** uuWW::amp: SM/uuWW.cpp 127-192 *)
Definition uuWW_amp : meth := mkMeth n_amp [(n_ds1, PkI); (n_ds2, PkI); (n_ds3, PkI); (n_ds4, PkI)]
(SLoc rC n_amplitude (EBin OpTTC (EUn I2T (EInt 0)) (EUn I2T (EInt 0)));,
SDecl rI n_ds3a;,
SDecl rI n_ds3b;,
SDecl rI n_ds4a;,
SDecl rI n_ds4b;,
SLoc rT n_two (EUn I2T (EInt 2));,
SLoc rI n_nCombs (ENLoops [(AVar n_ds3); (AVar n_ds4)]);,
SLoc rT n_normFactor (ENorm [(AVar n_ds3); (AVar n_ds4)]);,
(SFor n_i (EInt 0) (EBin (CmpI CLt) (ELocI n_i) (ELocI n_nCombs)) (EBin (OpI IAdd) (ELocI n_i) (EInt 1))
(SSpins [(n_ds3, n_ds3a, n_ds3b); (n_ds4, n_ds4a, n_ds4b)] (AVar n_i);,
SLoc rC n_amplitude ((ELocC n_amplitude) +c ((((((ELocT n_normFactor) *t (EMemT n_preh)) *tc (EV n_s34s [(AVar n_ds3a); (AVar n_ds4a)])) *c (EV n_a34a [(AVar n_ds3b); (AVar n_ds4b)])) *c ((EV n_s12s [(AVar n_ds1); (AVar n_ds2)]) +c (EV n_a12a [(AVar n_ds1); (AVar n_ds2)]))) /c (EMemC n_pDenhS)));,
SLoc rC n_amplitude ((ELocC n_amplitude) +c ((((((EUn NegT (ELocT n_normFactor)) *t (EMemT n_pred)) *tc (EV n_s24s [(AVar n_ds2); (AVar n_ds4a)])) *c (EV n_a13a [(AVar n_ds1); (AVar n_ds3a)])) *c (((EUn NegT (EMemT n_MW)) *tc (EV n_a34a [(AVar n_ds3b); (AVar n_ds4b)])) +c (EV n_s314a [(AVar n_ds3b); (AVar n_ds4b)]))) /c (EMemC n_pDendT)));,
SLoc rC n_amplitude ((ELocC n_amplitude) +c ((((((((((ELocT n_normFactor) *t (EMemT n_e)) *t (EMemT n_e)) *t (EMemT n_Qf)) *t (ELocT n_two)) /t (EMemT n_MW)) *tc (((((EV n_a13a [(AVar n_ds1); (AVar n_ds3a)]) *c (EV n_s24s [(AVar n_ds2); (AVar n_ds4a)])) +c ((EV n_s13s [(AVar n_ds1); (AVar n_ds3a)]) *c (EV n_a24a [(AVar n_ds2); (AVar n_ds4a)]))) +c ((EV n_a14a [(AVar n_ds1); (AVar n_ds4a)]) *c (EV n_s23s [(AVar n_ds2); (AVar n_ds3a)]))) +c ((EV n_s14s [(AVar n_ds1); (AVar n_ds4a)]) *c (EV n_a23a [(AVar n_ds2); (AVar n_ds3a)])))) *c ((EV n_s34s [(AVar n_ds3b); (AVar n_ds4b)]) +c (EV n_a34a [(AVar n_ds3b); (AVar n_ds4b)]))) /c (EMemC n_pDenAS)) +c (((((((((ELocT n_normFactor) *t (EMemT n_e)) *t (EMemT n_e)) *t (EMemT n_Qf)) *t (ELocT n_two)) /t (EMemT n_MW)) /t (EMemT n_MW)) *tc (((EV n_s34s [(AVar n_ds3a); (AVar n_ds4a)]) *c (EV n_a34a [(AVar n_ds3b); (AVar n_ds4b)])) *c ((EV n_s231a [(AVar n_ds2); (AVar n_ds1)]) +c (EV n_s132a [(AVar n_ds1); (AVar n_ds2)])))) /c (EMemC n_pDenAS))));,
SLoc rC n_amplitude ((ELocC n_amplitude) +c ((((EUn NegT (ELocT n_normFactor)) *t (EMemT n_preZ)) *tc ((((((((EMemT n_gL) -t (EMemT n_gR)) *t (EMemT n_mu)) *tc (EV n_s34s [(AVar n_ds3a); (AVar n_ds4a)])) *c (EV n_a34a [(AVar n_ds3b); (AVar n_ds4b)])) *c ((EV n_s12s [(AVar n_ds1); (AVar n_ds2)]) -c (EV n_a12a [(AVar n_ds1); (AVar n_ds2)]))) -c ((((ELocT n_two) *tc (EV n_s34s [(AVar n_ds3a); (AVar n_ds4a)])) *c (EV n_a34a [(AVar n_ds3b); (AVar n_ds4b)])) *c (((EMemT n_gL) *tc (EV n_s231a [(AVar n_ds2); (AVar n_ds1)])) +c ((EMemT n_gR) *tc (EV n_s132a [(AVar n_ds1); (AVar n_ds2)]))))) -c ((((ELocT n_two) *t (EMemT n_MW)) *tc ((EV n_s34s [(AVar n_ds3a); (AVar n_ds4a)]) +c (EV n_a34a [(AVar n_ds3a); (AVar n_ds4a)]))) *c (((EMemT n_gL) *tc (((EV n_s23s [(AVar n_ds2); (AVar n_ds3b)]) *c (EV n_a14a [(AVar n_ds1); (AVar n_ds4b)])) +c ((EV n_s24s [(AVar n_ds2); (AVar n_ds4b)]) *c (EV n_a13a [(AVar n_ds1); (AVar n_ds3b)])))) +c ((EMemT n_gR) *tc (((EV n_s13s [(AVar n_ds1); (AVar n_ds3b)]) *c (EV n_a24a [(AVar n_ds2); (AVar n_ds4b)])) +c ((EV n_s14s [(AVar n_ds1); (AVar n_ds4b)]) *c (EV n_a23a [(AVar n_ds2); (AVar n_ds3b)])))))))) /c (EMemC n_pDenZS)))));,
SReturnC (ELocC n_amplitude)).
(** uuWW::amp2: SM/uuWW.cpp 195-210 *)
Definition uuWW_amp2 : meth := mkMeth n_amp2 []
(SLoc rT n_amp2 (EUn I2T (EInt 0));,
SDecl rC n_M;,
(SFor n_j1 (EUn NegI (EInt 1)) (EBin (CmpI CLe) (ELocI n_j1) (EInt 1)) (EBin (OpI IAdd) (ELocI n_j1) (EInt 2))
(SFor n_j2 (EUn NegI (EInt 1)) (EBin (CmpI CLe) (ELocI n_j2) (EInt 1)) (EBin (OpI IAdd) (ELocI n_j2) (EInt 2))
(SFor n_j3 (EUn NegI (EInt 2)) (EBin (CmpI CLe) (ELocI n_j3) (EInt 2)) (EBin (OpI IAdd) (ELocI n_j3) (EInt 2))
(SFor n_j4 (EUn NegI (EInt 2)) (EBin (CmpI CLe) (ELocI n_j4) (EInt 2)) (EBin (OpI IAdd) (ELocI n_j4) (EInt 2))
(SLoc rC n_M (ECall n_amp [(AVar n_j1); (AVar n_j2); (AVar n_j3); (AVar n_j4)]);,
SLoc rT n_amp2 ((ELocT n_amp2) +t ((EUn D2T (ELit (3 # 1))) *t (EUn Pow2T (EUn AbsC (ELocC n_M))))))))));,
SReturnT ((ELocT n_amp2) /t (EUn D2T (ELit (36 # 1))))).
(** members: SM/include/uuWW.h 26-36; initialisers: SM/uuWW.cpp 32-33 *)
Definition uuWW : cls := mkCls "uuWW"
[(n_e, KT);
(n_Qf, KT);
(n_mu, KT);
(n_md, KT);
(n_mh, KT);
(n_wh, KT);
(n_MW, KT);
(n_SW, KT);
(n_CW, KT);
(n_MZ, KT);
(n_WZ, KT);
(n_p1, (KPart 0));
(n_p2, (KPart 1));
(n_p3, (KPart 2));
(n_p4, (KPart 3));
(n_proph, KProp);
(n_propd, KProp);
(n_propZ, KProp);
(n_propA, KProp);
(n_pDenhS, KC);
(n_pDendT, KC);
(n_pDendU, KC);
(n_pDenZS, KC);
(n_pDenAS, KC);
(n_s12s, KSprod);
(n_a12a, KSprod);
(n_s23s, KSprod);
(n_a23a, KSprod);
(n_s13s, KSprod);
(n_a13a, KSprod);
(n_s34s, KSprod);
(n_a34a, KSprod);
(n_s24s, KSprod);
(n_a24a, KSprod);
(n_s14s, KSprod);
(n_a14a, KSprod);
(n_s413a, KSprod);
(n_s314a, KSprod);
(n_s231a, KSprod);
(n_s132a, KSprod);
(n_sqrt2, KT);
(n_pred, KT);
(n_preh, KT);
(n_preZ, KT);
(n_gL, KT);
(n_gR, KT)]
[n_echarge; n_massu; n_massd; n_massh; n_widthh; n_massW; n_sinW; n_widthZ]
[(n_e, NT (ELocT n_echarge));
(n_Qf, NT (EUn D2T ((ELit (2 # 1)) /d (ELit (3 # 1)))));
(n_mu, NT (ELocT n_massu));
(n_md, NT (ELocT n_massd));
(n_mh, NT (ELocT n_massh));
(n_wh, NT (ELocT n_widthh));
(n_MW, NT (ELocT n_massW));
(n_SW, NT (ELocT n_sinW));
(n_CW, NT (EUn SqrtT ((EUn D2T (ELit (1 # 1))) -t ((ELocT n_sinW) *t (ELocT n_sinW)))));
(n_MZ, NT ((ELocT n_massW) /t (EMemT n_CW)));
(n_WZ, NT (ELocT n_widthZ));
(n_propd, NProp (EMemT n_md) (EUn I2T (EInt 0)));
(n_propA, NProp (EUn I2T (EInt 0)) (EUn I2T (EInt 0)))]
uuWW_ctor
[uuWW_set_masses; uuWW_set_momenta; uuWW_amp; uuWW_amp2].

(** uuZZ::uuZZ: SM/uuZZ.cpp 32-63 *)
Definition uuZZ_ctor : stmt :=
(SLoc rT n_two (EUn I2T (EInt 2));,
SMemT n_sqrt2 (EUn SqrtT (ELocT n_two));,
SMemT n_MZ ((EMemT n_MW) /t (EMemT n_CW));,
SPropNew n_proph (EMemT n_mh) (EMemT n_wh);,
SParticle 0 (EMemT n_mf);,
SParticle 1 (EMemT n_mf);,
SParticle 2 (EMemT n_MZ);,
SParticle 3 (EMemT n_MZ);,
SSprod n_s12s false 0 [] 1;,
SSprod n_a12a true 0 [] 1;,
SSprod n_s23s false 1 [] 2;,
SSprod n_a23a true 1 [] 2;,
SSprod n_s13s false 0 [] 2;,
SSprod n_a13a true 0 [] 2;,
SSprod n_s34s false 2 [] 3;,
SSprod n_a34a true 2 [] 3;,
SSprod n_s24s false 1 [] 3;,
SSprod n_a24a true 1 [] 3;,
SSprod n_s14s false 0 [] 3;,
SSprod n_a14a true 0 [] 3;,
SSprod n_s314a false 2 [0] 3;,
SSprod n_s413a false 3 [0] 2;,
SMemT n_preTU (((EMemT n_e) *t (EMemT n_e)) /t (((((EUn D2T (ELit (2 # 1))) *t (EMemT n_MW)) *t (EMemT n_MW)) *t (EMemT n_SW)) *t (EMemT n_SW)));,
SMemT n_gL (((((EUn D2T (EUn NegD (ELit (2 # 1)))) *t (EMemT n_Qf)) *t (EMemT n_SW)) *t (EMemT n_SW)) +t (EUn D2T (ELit (1 # 1))));,
SMemT n_gR ((((EUn D2T (EUn NegD (ELit (2 # 1)))) *t (EMemT n_Qf)) *t (EMemT n_SW)) *t (EMemT n_SW));,
SMemT n_preh ((((EMemT n_e) *t (EMemT n_e)) *t (EMemT n_mf)) /t (((((EUn D2T (ELit (2 # 1))) *t (EMemT n_MW)) *t (EMemT n_MW)) *t (EMemT n_SW)) *t (EMemT n_SW)))).
(** uuZZ::set_masses: SM/uuZZ.cpp 64-78 *)
Definition uuZZ_set_masses : meth := mkMeth n_set_masses [(n_massf, PkT); (n_massh, PkT); (n_massW, PkT)]
(SMemT n_mf (ELocT n_massf);,
SMemT n_mh (ELocT n_massh);,
SMemT n_MW (ELocT n_massW);,
SMemT n_MZ ((EMemT n_MW) /t (EMemT n_CW));,
SSetMass 0 (EMemT n_mf);,
SSetMass 1 (EMemT n_mf);,
SSetMass 2 (EMemT n_MZ);,
SSetMass 3 (EMemT n_MZ);,
SPropMass n_propf (EMemT n_mf);,
SPropMass n_proph (EMemT n_mh);,
SMemT n_preTU (((EMemT n_e) *t (EMemT n_e)) /t (((((EUn D2T (ELit (2 # 1))) *t (EMemT n_MW)) *t (EMemT n_MW)) *t (EMemT n_SW)) *t (EMemT n_SW)));,
SMemT n_preh ((((EMemT n_e) *t (EMemT n_e)) *t (EMemT n_mf)) /t (((((EUn D2T (ELit (2 # 1))) *t (EMemT n_MW)) *t (EMemT n_MW)) *t (EMemT n_SW)) *t (EMemT n_SW)))).
(** uuZZ::set_momenta: SM/uuZZ.cpp 79-111 *)
Definition uuZZ_set_momenta : meth := mkMeth n_set_momenta [(n_mom1, PkMom); (n_mom2, PkMom); (n_mom3, PkMom); (n_mom4, PkMom)]
(SSetMomentum 0 n_mom1;,
SSetMomentum 1 n_mom2;,
SSetMomentum 2 n_mom3;,
SSetMomentum 3 n_mom4;,
SUpdate n_s12s;,
SUpdate n_a12a;,
SUpdate n_s23s;,
SUpdate n_a23a;,
SUpdate n_s13s;,
SUpdate n_a13a;,
SUpdate n_s34s;,
SUpdate n_a34a;,
SUpdate n_s24s;,
SUpdate n_a24a;,
SUpdate n_s14s;,
SUpdate n_a14a;,
SUpdate n_s314a;,
SUpdate n_s413a;,
SDeclT n_propSP 4;,
SDeclT n_propTP 4;,
SDeclT n_propUP 4;,
(SFor n_j (EInt 0) (EBin (CmpI CLt) (ELocI n_j) (EInt 4)) (EBin (OpI IAdd) (ELocI n_j) (EInt 1))
(SArrT n_propSP (AVar n_j) ((EArrT n_mom1 (AVar n_j)) +t (EArrT n_mom2 (AVar n_j)));,
SArrT n_propTP (AVar n_j) ((EArrT n_mom1 (AVar n_j)) -t (EArrT n_mom3 (AVar n_j)));,
SArrT n_propUP (AVar n_j) ((EArrT n_mom1 (AVar n_j)) -t (EArrT n_mom4 (AVar n_j)))));,
SMemC n_pDenS (EDen n_proph n_propSP);,
SMemC n_pDenT (EDen n_propf n_propTP);,
SMemC n_pDenU (EDen n_propf n_propUP)).
(** uuZZ::amp: SM/uuZZ.cpp 116-166 *)
Definition uuZZ_amp : meth := mkMeth n_amp [(n_ds1, PkI); (n_ds2, PkI); (n_ds3, PkI); (n_ds4, PkI)]
(SLoc rC n_amplitude (EBin OpTTC (EUn I2T (EInt 0)) (EUn I2T (EInt 0)));,
SDecl rI n_ds3a;,
SDecl rI n_ds3b;,
SDecl rI n_ds4a;,
SDecl rI n_ds4b;,
SLoc rI n_nCombs (ENLoops [(AVar n_ds3); (AVar n_ds4)]);,
SLoc rT n_normFactor (ENorm [(AVar n_ds3); (AVar n_ds4)]);,
(SFor n_i (EInt 0) (EBin (CmpI CLt) (ELocI n_i) (ELocI n_nCombs)) (EBin (OpI IAdd) (ELocI n_i) (EInt 1))
(SSpins [(n_ds3, n_ds3a, n_ds3b); (n_ds4, n_ds4a, n_ds4b)] (AVar n_i);,
SLoc rC n_amplitude ((ELocC n_amplitude) +c ((((((ELocT n_normFactor) *t (EMemT n_preh)) *tc (EV n_s34s [(AVar n_ds3a); (AVar n_ds4a)])) *c (EV n_a34a [(AVar n_ds3b); (AVar n_ds4b)])) *c ((EV n_s12s [(AVar n_ds1); (AVar n_ds2)]) +c (EV n_a12a [(AVar n_ds1); (AVar n_ds2)]))) /c (EMemC n_pDenS)));,
SLoc rC n_amplitude ((ELocC n_amplitude) +c ((((((((((ELocT n_normFactor) *t (EMemT n_preTU)) *t (EMemT n_gL)) *t (EMemT n_gL)) *tc (EV n_s24s [(AVar n_ds2); (AVar n_ds4a)])) *c (EV n_a13a [(AVar n_ds1); (AVar n_ds3a)])) *c (((EMemT n_MZ) *tc (EV n_a34a [(AVar n_ds3b); (AVar n_ds4b)])) -c (EV n_s314a [(AVar n_ds3b); (AVar n_ds4b)]))) /c (EMemC n_pDenT)) +c ((((((((ELocT n_normFactor) *t (EMemT n_preTU)) *t (EMemT n_gR)) *t (EMemT n_gR)) *tc (EV n_a24a [(AVar n_ds2); (AVar n_ds4a)])) *c (EV n_s13s [(AVar n_ds1); (AVar n_ds3a)])) *c (((EMemT n_MZ) *tc (EV n_s34s [(AVar n_ds3b); (AVar n_ds4b)])) -c (EV n_s413a [(AVar n_ds4b); (AVar n_ds3b)]))) /c (EMemC n_pDenT))) -c (((((((ELocT n_normFactor) *t (EMemT n_preTU)) *t (EMemT n_gL)) *t (EMemT n_gR)) *t (EMemT n_mf)) *tc ((((EV n_s13s [(AVar n_ds1); (AVar n_ds3a)]) *c (EV n_s24s [(AVar n_ds2); (AVar n_ds4a)])) *c (EV n_a34a [(AVar n_ds3b); (AVar n_ds4b)])) +c (((EV n_a13a [(AVar n_ds1); (AVar n_ds3a)]) *c (EV n_a24a [(AVar n_ds2); (AVar n_ds4a)])) *c (EV n_s34s [(AVar n_ds3b); (AVar n_ds4b)])))) /c (EMemC n_pDenT))));,
SLoc rC n_amplitude ((ELocC n_amplitude) +c ((((((((((EUn NegT (ELocT n_normFactor)) *t (EMemT n_preTU)) *t (EMemT n_gL)) *t (EMemT n_gL)) *tc (EV n_s23s [(AVar n_ds2); (AVar n_ds3a)])) *c (EV n_a14a [(AVar n_ds1); (AVar n_ds4a)])) *c (((EMemT n_MZ) *tc (EV n_a34a [(AVar n_ds3b); (AVar n_ds4b)])) +c (EV n_s413a [(AVar n_ds4b); (AVar n_ds3b)]))) /c (EMemC n_pDenU)) -c ((((((((ELocT n_normFactor) *t (EMemT n_preTU)) *t (EMemT n_gR)) *t (EMemT n_gR)) *tc (EV n_s14s [(AVar n_ds1); (AVar n_ds4a)])) *c (EV n_a23a [(AVar n_ds2); (AVar n_ds3a)])) *c (((EMemT n_MZ) *tc (EV n_s34s [(AVar n_ds3b); (AVar n_ds4b)])) +c (EV n_s314a [(AVar n_ds3b); (AVar n_ds4b)]))) /c (EMemC n_pDenU))) +c (((((((ELocT n_normFactor) *t (EMemT n_preTU)) *t (EMemT n_gL)) *t (EMemT n_gR)) *t (EMemT n_mf)) *tc ((((EV n_s14s [(AVar n_ds1); (AVar n_ds4a)]) *c (EV n_s23s [(AVar n_ds2); (AVar n_ds3a)])) *c (EV n_a34a [(AVar n_ds3b); (AVar n_ds4b)])) +c (((EV n_a14a [(AVar n_ds1); (AVar n_ds4a)]) *c (EV n_a23a [(AVar n_ds2); (AVar n_ds3a)])) *c (EV n_s34s [(AVar n_ds3b); (AVar n_ds4b)])))) /c (EMemC n_pDenU))))));,
SReturnC (ELocC n_amplitude)).
(** uuZZ::amp2: SM/uuZZ.cpp 169-185 *)
Definition uuZZ_amp2 : meth := mkMeth n_amp2 []
(SLoc rT n_amp2 (EUn I2T (EInt 0));,
SDecl rC n_M;,
(SFor n_j1 (EUn NegI (EInt 1)) (EBin (CmpI CLe) (ELocI n_j1) (EInt 1)) (EBin (OpI IAdd) (ELocI n_j1) (EInt 2))
(SFor n_j2 (EUn NegI (EInt 1)) (EBin (CmpI CLe) (ELocI n_j2) (EInt 1)) (EBin (OpI IAdd) (ELocI n_j2) (EInt 2))
(SFor n_j3 (EUn NegI (EInt 2)) (EBin (CmpI CLe) (ELocI n_j3) (EInt 2)) (EBin (OpI IAdd) (ELocI n_j3) (EInt 2))
(SFor n_j4 (EUn NegI (EInt 2)) (EBin (CmpI CLe) (ELocI n_j4) (EInt 2)) (EBin (OpI IAdd) (ELocI n_j4) (EInt 2))
(SLoc rC n_M (ECall n_amp [(AVar n_j1); (AVar n_j2); (AVar n_j3); (AVar n_j4)]);,
SLoc rT n_amp2 ((ELocT n_amp2) +t ((EUn D2T (ELit (3 # 1))) *t (EUn Pow2T (EUn AbsC (ELocC n_M))))))))));,
SReturnT ((ELocT n_amp2) /t (EUn D2T (ELit (72 # 1))))).
(** members: SM/include/uuZZ.h 26-36; initialisers: SM/uuZZ.cpp 32-33 *)
Definition uuZZ : cls := mkCls "uuZZ"
[(n_e, KT);
(n_Qf, KT);
(n_mf, KT);
(n_mh, KT);
(n_wh, KT);
(n_MW, KT);
(n_SW, KT);
(n_CW, KT);
(n_MZ, KT);
(n_WZ, KT);
(n_p1, (KPart 0));
(n_p2, (KPart 1));
(n_p3, (KPart 2));
(n_p4, (KPart 3));
(n_proph, KProp);
(n_propf, KProp);
(n_pDenS, KC);
(n_pDenT, KC);
(n_pDenU, KC);
(n_s12s, KSprod);
(n_a12a, KSprod);
(n_s23s, KSprod);
(n_a23a, KSprod);
(n_s13s, KSprod);
(n_a13a, KSprod);
(n_s34s, KSprod);
(n_a34a, KSprod);
(n_s24s, KSprod);
(n_a24a, KSprod);
(n_s14s, KSprod);
(n_a14a, KSprod);
(n_s314a, KSprod);
(n_s413a, KSprod);
(n_sqrt2, KT);
(n_preTU, KT);
(n_preh, KT);
(n_gL, KT);
(n_gR, KT)]
[n_echarge; n_massf; n_massh; n_widthh; n_massW; n_sinW; n_widthZ]
[(n_e, NT (ELocT n_echarge));
(n_Qf, NT (EUn D2T ((ELit (2 # 1)) /d (ELit (3 # 1)))));
(n_mf, NT (ELocT n_massf));
(n_mh, NT (ELocT n_massh));
(n_wh, NT (ELocT n_widthh));
(n_MW, NT (ELocT n_massW));
(n_SW, NT (ELocT n_sinW));
(n_CW, NT (EUn SqrtT ((EUn D2T (ELit (1 # 1))) -t ((ELocT n_sinW) *t (ELocT n_sinW)))));
(n_MZ, NT ((ELocT n_massW) /t (EMemT n_CW)));
(n_WZ, NT (ELocT n_widthZ));
(n_propf, NProp (ELocT n_massf) (EUn I2T (EInt 0)))]
uuZZ_ctor
[uuZZ_set_masses; uuZZ_set_momenta; uuZZ_amp; uuZZ_amp2].

Definition SM11_classes : list cls := [udud; ueeu; uguh; uhWd; uhuh; ulnd; unnu; usus; uuAA; uuAh; uuWW; uuZZ].
