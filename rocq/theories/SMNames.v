(** Generated by tools/translate.py: the names used in the process classes. *)
From Coq Require Import ZArith.
From Verif Require Import Lang.

Definition n_CW : id := 2%positive.
Definition n_M : id := 3%positive.
Definition n_M2 : id := 4%positive.
Definition n_MW : id := 5%positive.
Definition n_MZ : id := 6%positive.
Definition n_M_Num : id := 7%positive.
Definition n_M_W : id := 8%positive.
Definition n_M_gluon : id := 9%positive.
Definition n_M_gluon_S : id := 10%positive.
Definition n_M_gluon_T : id := 11%positive.
Definition n_M_gluon_U : id := 12%positive.
Definition n_M_rest : id := 13%positive.
Definition n_M_rest_S : id := 14%positive.
Definition n_M_rest_T : id := 15%positive.
Definition n_M_rest_U : id := 16%positive.
Definition n_Qd : id := 17%positive.
Definition n_Qf : id := 18%positive.
Definition n_Qu : id := 19%positive.
Definition n_SW : id := 20%positive.
Definition n_WW : id := 21%positive.
Definition n_WZ : id := 22%positive.
Definition n_a12 : id := 23%positive.
Definition n_a123s : id := 24%positive.
Definition n_a12a : id := 25%positive.
Definition n_a13 : id := 26%positive.
Definition n_a132s : id := 27%positive.
Definition n_a1341a : id := 28%positive.
Definition n_a134s : id := 29%positive.
Definition n_a13a : id := 30%positive.
Definition n_a14 : id := 31%positive.
Definition n_a1432a : id := 32%positive.
Definition n_a143s : id := 33%positive.
Definition n_a14a : id := 34%positive.
Definition n_a213s : id := 35%positive.
Definition n_a214s : id := 36%positive.
Definition n_a21a : id := 37%positive.
Definition n_a23 : id := 38%positive.
Definition n_a2312a : id := 39%positive.
Definition n_a2342 : id := 40%positive.
Definition n_a2342a : id := 41%positive.
Definition n_a23a : id := 42%positive.
Definition n_a24 : id := 43%positive.
Definition n_a241 : id := 44%positive.
Definition n_a241s : id := 45%positive.
Definition n_a243 : id := 46%positive.
Definition n_a243s : id := 47%positive.
Definition n_a24a : id := 48%positive.
Definition n_a3123a : id := 49%positive.
Definition n_a3124a : id := 50%positive.
Definition n_a31a : id := 51%positive.
Definition n_a3214a : id := 52%positive.
Definition n_a3243a : id := 53%positive.
Definition n_a32a : id := 54%positive.
Definition n_a34 : id := 55%positive.
Definition n_a3413a : id := 56%positive.
Definition n_a341s : id := 57%positive.
Definition n_a342s : id := 58%positive.
Definition n_a34a : id := 59%positive.
Definition n_a41a : id := 60%positive.
Definition n_a42a : id := 61%positive.
Definition n_a43a : id := 62%positive.
Definition n_amp : id := 63%positive.
Definition n_amp2 : id := 64%positive.
Definition n_amp2_Aminus : id := 65%positive.
Definition n_amp2_Aplus : id := 66%positive.
Definition n_amp2_Aplus_Aminus : id := 67%positive.
Definition n_amp2_Aplus_Aplus : id := 68%positive.
Definition n_amp2_Feynman : id := 69%positive.
Definition n_amp2_gminus : id := 70%positive.
Definition n_amp2_gminus_gminus : id := 71%positive.
Definition n_amp2_gminus_gplus : id := 72%positive.
Definition n_amp2_gplus : id := 73%positive.
Definition n_amp2_gplus_Aminus : id := 74%positive.
Definition n_amp2_gplus_Aplus : id := 75%positive.
Definition n_amp2_gplus_gminus : id := 76%positive.
Definition n_amp2_gplus_gplus : id := 77%positive.
Definition n_amp2_momenta : id := 78%positive.
Definition n_amp_Num : id := 79%positive.
Definition n_amp_W : id := 80%positive.
Definition n_amp_gluon : id := 81%positive.
Definition n_amp_gluon_S : id := 82%positive.
Definition n_amp_gluon_T : id := 83%positive.
Definition n_amp_gluon_U : id := 84%positive.
Definition n_amp_rest : id := 85%positive.
Definition n_amp_rest_S : id := 86%positive.
Definition n_amp_rest_T : id := 87%positive.
Definition n_amp_rest_U : id := 88%positive.
Definition n_amplitude : id := 89%positive.
Definition n_combFactor : id := 90%positive.
Definition n_ds1 : id := 91%positive.
Definition n_ds1a : id := 92%positive.
Definition n_ds1b : id := 93%positive.
Definition n_ds2 : id := 94%positive.
Definition n_ds2a : id := 95%positive.
Definition n_ds2b : id := 96%positive.
Definition n_ds3 : id := 97%positive.
Definition n_ds3a : id := 98%positive.
Definition n_ds3b : id := 99%positive.
Definition n_ds4 : id := 100%positive.
Definition n_ds4a : id := 101%positive.
Definition n_ds4b : id := 102%positive.
Definition n_e : id := 103%positive.
Definition n_echarge : id := 104%positive.
Definition n_eight : id := 105%positive.
Definition n_eleven : id := 106%positive.
Definition n_five : id := 107%positive.
Definition n_four : id := 108%positive.
Definition n_gL : id := 109%positive.
Definition n_gLd : id := 110%positive.
Definition n_gLe : id := 111%positive.
Definition n_gLn : id := 112%positive.
Definition n_gLu : id := 113%positive.
Definition n_gR : id := 114%positive.
Definition n_gRd : id := 115%positive.
Definition n_gRe : id := 116%positive.
Definition n_gRn : id := 117%positive.
Definition n_gRu : id := 118%positive.
Definition n_gcharge : id := 119%positive.
Definition n_gs : id := 120%positive.
Definition n_gscharge : id := 121%positive.
Definition n_i : id := 122%positive.
Definition n_j : id := 123%positive.
Definition n_j1 : id := 124%positive.
Definition n_j2 : id := 125%positive.
Definition n_j3 : id := 126%positive.
Definition n_j4 : id := 127%positive.
Definition n_m12 : id := 128%positive.
Definition n_massW : id := 129%positive.
Definition n_massb : id := 130%positive.
Definition n_massc : id := 131%positive.
Definition n_massd : id := 132%positive.
Definition n_masse : id := 133%positive.
Definition n_massf : id := 134%positive.
Definition n_massh : id := 135%positive.
Definition n_massmu : id := 136%positive.
Definition n_masss : id := 137%positive.
Definition n_masst : id := 138%positive.
Definition n_masstau : id := 139%positive.
Definition n_massu : id := 140%positive.
Definition n_mb : id := 141%positive.
Definition n_mc : id := 142%positive.
Definition n_md : id := 143%positive.
Definition n_me : id := 144%positive.
Definition n_mf : id := 145%positive.
Definition n_mh : id := 146%positive.
Definition n_ml : id := 147%positive.
Definition n_mm : id := 148%positive.
Definition n_mom1 : id := 149%positive.
Definition n_mom2 : id := 150%positive.
Definition n_mom3 : id := 151%positive.
Definition n_mom4 : id := 152%positive.
Definition n_ms : id := 153%positive.
Definition n_mt : id := 154%positive.
Definition n_mu : id := 155%positive.
Definition n_nCombs : id := 156%positive.
Definition n_nine : id := 157%positive.
Definition n_normFactor : id := 158%positive.
Definition n_numM : id := 159%positive.
Definition n_numMM : id := 160%positive.
Definition n_numMP : id := 161%positive.
Definition n_numP : id := 162%positive.
Definition n_numPM : id := 163%positive.
Definition n_numPP : id := 164%positive.
Definition n_one : id := 165%positive.
Definition n_oneHalf : id := 166%positive.
Definition n_oneSixth : id := 167%positive.
Definition n_p1 : id := 168%positive.
Definition n_p2 : id := 169%positive.
Definition n_p3 : id := 170%positive.
Definition n_p4 : id := 171%positive.
Definition n_pDenAS : id := 172%positive.
Definition n_pDenAT : id := 173%positive.
Definition n_pDenAU : id := 174%positive.
Definition n_pDenS : id := 175%positive.
Definition n_pDenSA : id := 176%positive.
Definition n_pDenSAG : id := 177%positive.
Definition n_pDenSZ : id := 178%positive.
Definition n_pDenSd : id := 179%positive.
Definition n_pDenSe : id := 180%positive.
Definition n_pDenSh : id := 181%positive.
Definition n_pDenSu : id := 182%positive.
Definition n_pDenT : id := 183%positive.
Definition n_pDenTA : id := 184%positive.
Definition n_pDenTAG : id := 185%positive.
Definition n_pDenTW : id := 186%positive.
Definition n_pDenTZ : id := 187%positive.
Definition n_pDenTd : id := 188%positive.
Definition n_pDenTe : id := 189%positive.
Definition n_pDenTh : id := 190%positive.
Definition n_pDenTu : id := 191%positive.
Definition n_pDenU : id := 192%positive.
Definition n_pDenUA : id := 193%positive.
Definition n_pDenUAG : id := 194%positive.
Definition n_pDenUW : id := 195%positive.
Definition n_pDenUZ : id := 196%positive.
Definition n_pDenUd : id := 197%positive.
Definition n_pDenUe : id := 198%positive.
Definition n_pDenUh : id := 199%positive.
Definition n_pDenUu : id := 200%positive.
Definition n_pDenWS : id := 201%positive.
Definition n_pDenWT : id := 202%positive.
Definition n_pDenZS : id := 203%positive.
Definition n_pDenZT : id := 204%positive.
Definition n_pDenZU : id := 205%positive.
Definition n_pDendS : id := 206%positive.
Definition n_pDendT : id := 207%positive.
Definition n_pDendU : id := 208%positive.
Definition n_pDeneT : id := 209%positive.
Definition n_pDeneU : id := 210%positive.
Definition n_pDenhS : id := 211%positive.
Definition n_pDenhT : id := 212%positive.
Definition n_pDenhU : id := 213%positive.
Definition n_pDenneS : id := 214%positive.
Definition n_pDenneT : id := 215%positive.
Definition n_pDenneU : id := 216%positive.
Definition n_pDenuT : id := 217%positive.
Definition n_pDenuU : id := 218%positive.
Definition n_pre : id := 219%positive.
Definition n_preA : id := 220%positive.
Definition n_preS : id := 221%positive.
Definition n_preSU : id := 222%positive.
Definition n_preTS : id := 223%positive.
Definition n_preTU : id := 224%positive.
Definition n_preW : id := 225%positive.
Definition n_preZ : id := 226%positive.
Definition n_preZ0 : id := 227%positive.
Definition n_preZLL : id := 228%positive.
Definition n_preZLR : id := 229%positive.
Definition n_preZRR : id := 230%positive.
Definition n_pred : id := 231%positive.
Definition n_pree : id := 232%positive.
Definition n_preh : id := 233%positive.
Definition n_prehS : id := 234%positive.
Definition n_prehSTU : id := 235%positive.
Definition n_prehSU : id := 236%positive.
Definition n_prehT : id := 237%positive.
Definition n_prehTU : id := 238%positive.
Definition n_pren : id := 239%positive.
Definition n_prene : id := 240%positive.
Definition n_preu : id := 241%positive.
Definition n_preud : id := 242%positive.
Definition n_prop : id := 243%positive.
Definition n_propA : id := 244%positive.
Definition n_propAG : id := 245%positive.
Definition n_propAm : id := 246%positive.
Definition n_propAp : id := 247%positive.
Definition n_propDS : id := 248%positive.
Definition n_propDT : id := 249%positive.
Definition n_propDU : id := 250%positive.
Definition n_propP : id := 251%positive.
Definition n_propPS : id := 252%positive.
Definition n_propPT : id := 253%positive.
Definition n_propPU : id := 254%positive.
Definition n_propSD : id := 255%positive.
Definition n_propSP : id := 256%positive.
Definition n_propTP : id := 257%positive.
Definition n_propUP : id := 258%positive.
Definition n_propW : id := 259%positive.
Definition n_propZ : id := 260%positive.
Definition n_propd : id := 261%positive.
Definition n_prope : id := 262%positive.
Definition n_propf : id := 263%positive.
Definition n_propg : id := 264%positive.
Definition n_proph : id := 265%positive.
Definition n_propne : id := 266%positive.
Definition n_propu : id := 267%positive.
Definition n_s12 : id := 268%positive.
Definition n_s121a : id := 269%positive.
Definition n_s123a : id := 270%positive.
Definition n_s124a : id := 271%positive.
Definition n_s12s : id := 272%positive.
Definition n_s13 : id := 273%positive.
Definition n_s131a : id := 274%positive.
Definition n_s132a : id := 275%positive.
Definition n_s1341s : id := 276%positive.
Definition n_s134a : id := 277%positive.
Definition n_s13s : id := 278%positive.
Definition n_s14 : id := 279%positive.
Definition n_s141a : id := 280%positive.
Definition n_s142a : id := 281%positive.
Definition n_s1432s : id := 282%positive.
Definition n_s143a : id := 283%positive.
Definition n_s14s : id := 284%positive.
Definition n_s213a : id := 285%positive.
Definition n_s214a : id := 286%positive.
Definition n_s23 : id := 287%positive.
Definition n_s2312s : id := 288%positive.
Definition n_s231a : id := 289%positive.
Definition n_s2342 : id := 290%positive.
Definition n_s2342s : id := 291%positive.
Definition n_s234a : id := 292%positive.
Definition n_s23s : id := 293%positive.
Definition n_s24 : id := 294%positive.
Definition n_s241 : id := 295%positive.
Definition n_s241a : id := 296%positive.
Definition n_s242a : id := 297%positive.
Definition n_s243 : id := 298%positive.
Definition n_s243a : id := 299%positive.
Definition n_s24s : id := 300%positive.
Definition n_s3123s : id := 301%positive.
Definition n_s312a : id := 302%positive.
Definition n_s313a : id := 303%positive.
Definition n_s314 : id := 304%positive.
Definition n_s314a : id := 305%positive.
Definition n_s31s : id := 306%positive.
Definition n_s3214s : id := 307%positive.
Definition n_s321a : id := 308%positive.
Definition n_s323a : id := 309%positive.
Definition n_s3243s : id := 310%positive.
Definition n_s324a : id := 311%positive.
Definition n_s32s : id := 312%positive.
Definition n_s34 : id := 313%positive.
Definition n_s3413s : id := 314%positive.
Definition n_s341a : id := 315%positive.
Definition n_s342a : id := 316%positive.
Definition n_s343a : id := 317%positive.
Definition n_s34s : id := 318%positive.
Definition n_s412a : id := 319%positive.
Definition n_s413 : id := 320%positive.
Definition n_s413a : id := 321%positive.
Definition n_s41s : id := 322%positive.
Definition n_s421a : id := 323%positive.
Definition n_s424a : id := 324%positive.
Definition n_s42s : id := 325%positive.
Definition n_s431a : id := 326%positive.
Definition n_s432a : id := 327%positive.
Definition n_s43s : id := 328%positive.
Definition n_set_masses : id := 329%positive.
Definition n_set_momenta : id := 330%positive.
Definition n_set_v : id := 331%positive.
Definition n_sinW : id := 332%positive.
Definition n_six : id := 333%positive.
Definition n_sqrt2 : id := 334%positive.
Definition n_three : id := 335%positive.
Definition n_threeEights : id := 336%positive.
Definition n_two : id := 337%positive.
Definition n_v : id := 338%positive.
Definition n_vev : id := 339%positive.
Definition n_wh : id := 340%positive.
Definition n_widthW : id := 341%positive.
Definition n_widthZ : id := 342%positive.
Definition n_widthh : id := 343%positive.
Definition n_zero : id := 344%positive.
