(** * Four fermions: the tables of the classes

    For every class with four outer fermions: the process, the amplitude of the code as a
    table of rows (colour structure, propagator and channel, product of two spinor products,
    coefficient in the parameters of the constructor), the table of the Feynman rules, and the
    proof that they agree for all parameters. *)
From Coq Require Import Reals QArith Qreals String Ascii Lra Lia.
From Coquelicot Require Import Complex.
From Verif Require Import Base Scalar RealNum Linear Integers Particle Sproduct Propagator Process
  ParticleProofs SpecSpinor ParticleReal SpinorReal Ready ParticleClaims SpecSproduct SpecChain ChainReal Lorentz
  WorldProofs Lang LangFrame Pure PureProofs ReadOnly Sym SymEq SMNames SMRun SMTwins SMMasses SMAll SMChecks
  SMAmp2 SpinColour Poly Covariant CovReal PropsWidth Feynman FeynmanAlg FeynmanLegs FeynmanFlat.
Close Scope Q_scope.
Close Scope R_scope.
Open Scope nat_scope.

(** ** The processes *)
Definition l_ (f : flavour) : fleg := mkLeg f false.
Definition a_ (f : flavour) : fleg := mkLeg f true.
Definition all_bosons : list boson := [BA; BZ; BW; Bh; Bg].
Record entry : Type := Entry { e_cls : cls; e_proc : process; e_bosons : list boson }.
Definition ff_entries : list entry :=
  [ Entry eemmQED (l_ Fe, a_ Fe, l_ Fm, a_ Fm) [BA]; Entry eemmQED2 (l_ Fe, a_ Fe, l_ Fm, a_ Fm) [BA];
    Entry eeeeQED (l_ Fe, a_ Fe, l_ Fe, a_ Fe) [BA];
    Entry eemm (l_ Fe, a_ Fe, l_ Fm, a_ Fm) all_bosons;
    Entry eeee (l_ Fe, a_ Fe, l_ Fe, a_ Fe) all_bosons;
    Entry eeee2 (l_ Fe, l_ Fe, l_ Fe, l_ Fe) all_bosons;
    Entry emem (l_ Fe, l_ Fm, l_ Fe, l_ Fm) all_bosons;
    Entry eenene (l_ Fe, a_ Fe, l_ Fne, a_ Fne) all_bosons;
    Entry eenmnm (l_ Fe, a_ Fe, l_ Fnm, a_ Fnm) all_bosons;
    Entry enenee (l_ Fe, l_ Fne, l_ Fne, l_ Fe) all_bosons;
    Entry enmenm (l_ Fe, l_ Fnm, l_ Fe, l_ Fnm) all_bosons;
    Entry menn (a_ Fm, l_ Fe, l_ Fne, a_ Fnm) all_bosons;
    Entry mnen (l_ Fm, l_ Fne, l_ Fe, l_ Fnm) all_bosons;
    Entry nenenene (l_ Fne, a_ Fne, l_ Fne, a_ Fne) all_bosons;
    Entry nenenene2 (l_ Fne, l_ Fne, l_ Fne, l_ Fne) all_bosons;
    Entry nenenmnm (l_ Fne, a_ Fne, l_ Fnm, a_ Fnm) all_bosons;
    Entry nenmnenm (l_ Fne, l_ Fnm, l_ Fne, l_ Fnm) all_bosons;
    Entry ddee (l_ Fd, a_ Fd, l_ Fe, a_ Fe) all_bosons;
    Entry ddnn (l_ Fd, a_ Fd, l_ Fne, a_ Fne) all_bosons;
    Entry deed (l_ Fd, l_ Fe, l_ Fe, l_ Fd) all_bosons;
    Entry dnnd (l_ Fd, l_ Fnm, l_ Fnm, l_ Fd) all_bosons;
    Entry uuee (l_ Fu, a_ Fu, l_ Fe, a_ Fe) all_bosons;
    Entry uunn (l_ Fu, a_ Fu, l_ Fne, a_ Fne) all_bosons;
    Entry ueeu (l_ Fu, l_ Fe, l_ Fe, l_ Fu) all_bosons;
    Entry unnu (l_ Fu, l_ Fnm, l_ Fnm, l_ Fu) all_bosons;
    Entry udnl (l_ Fu, a_ Fd, l_ Fnl, a_ Fl) all_bosons;
    Entry ulnd (l_ Fu, l_ Fl, l_ Fnl, l_ Fd) all_bosons;
    Entry ubdt (l_ Fu, l_ Fb, l_ Fd, l_ Ft) all_bosons;
    Entry udtb (l_ Fu, a_ Fd, l_ Ft, a_ Fb) all_bosons;
    Entry udud (l_ Fu, l_ Fd, l_ Fu, l_ Fd) all_bosons;
    Entry uudd (l_ Fu, a_ Fu, l_ Fd, a_ Fd) all_bosons;
    Entry dddd (l_ Fd, a_ Fd, l_ Fd, a_ Fd) all_bosons;
    Entry dddd2 (l_ Fd, l_ Fd, l_ Fd, l_ Fd) all_bosons;
    Entry ddss (l_ Fd, a_ Fd, l_ Fs, a_ Fs) all_bosons;
    Entry dsds (l_ Fd, l_ Fs, l_ Fd, l_ Fs) all_bosons;
    Entry ucuc (l_ Fu, l_ Fc, l_ Fu, l_ Fc) all_bosons;
    Entry usus (l_ Fu, l_ Fs, l_ Fu, l_ Fs) all_bosons;
    Entry uucc (l_ Fu, a_ Fu, l_ Fc, a_ Fc) all_bosons;
    Entry uuss (l_ Fu, a_ Fu, l_ Fs, a_ Fs) all_bosons;
    Entry uuuu (l_ Fu, a_ Fu, l_ Fu, a_ Fu) all_bosons;
    Entry uuuu2 (l_ Fu, l_ Fu, l_ Fu, l_ Fu) all_bosons ].

(** The parameters of a constructor by their names; what a class does not take is 0.  The
    classes of [PropsWidth.widthless] ignore the width of the Z. *)
Fixpoint index (x : id) (l : list id) : option nat :=
  match l with [] => None | y :: l' => if Pos.eqb x y then Some 0 else match index x l' with Some k => Some (S k) | None => None end end.
Definition par (c : cls) (v : nat -> R) (x : id) : R := match index x (c_params c) with Some k => v k | None => 0%R end.
Definition sm_of (c : cls) (v : nat -> R) : standard_model :=
  mkSM (par c v n_echarge) (par c v n_gscharge) (par c v n_sinW) (par c v n_massW) (par c v n_massh)
    (if drops c n_widthZ then 0%R else par c v n_widthZ) (par c v n_widthW) (par c v n_widthh)
    (fun f => match f with
              | Fe => par c v n_masse | Fm => par c v n_massmu | Fl => par c v n_masstau
              | Fne | Fnm | Fnl => 0%R
              | Fu => par c v n_massu | Fc => par c v n_massc | Ft => par c v n_masst
              | Fd => par c v n_massd | Fs => par c v n_masss | Fb => par c v n_massb end).

(** ** The table of the code *)
Definition thepat (c : cls) : nat -> bool :=
  let f p := match leg c p with Some true => true | _ => false end in mkpat (f 0) (f 1) (f 2) (f 3).
(** expressions in the parameters of the constructor *)
Fixpoint pureD (x : sD) : bool := match x with DLit _ => true | DOp _ x y => pureD x && pureD y | DNeg x | DSqr x => pureD x end.
Fixpoint pure (x : sT) : bool :=
  match x with
  | TInt _ => true | TofD d => pureD d | TOp _ x y => pure x && pure y | TNeg x | TSqr x | TPw x => pure x
  | TAt (APar _) => true | _ => false end.
Definition aopR (a : aop) : R -> R -> R := match a with Add => Rplus | Sub => Rminus | Mul => Rmult | Div => Rdiv end.
Fixpoint tdenD (x : sD) : R :=
  match x with
  | DLit (Qmake n 1) => IZR n | DLit q => Q2R q | DOp a x y => aopR a (tdenD x) (tdenD y) | DNeg x => Ropp (tdenD x) | DSqr x => sqrt (tdenD x) end.
Fixpoint tden (v : nat -> R) (x : sT) : R :=
  match x with
  | TInt z => IZR z | TofD d => tdenD d | TOp a x y => aopR a (tden v x) (tden v y) | TNeg x => Ropp (tden v x)
  | TSqr x => sqrt (tden v x) | TPw x => Rmult (tden v x) (tden v x) | TAt (APar k) => v k | _ => 0%R end.
(** members and masses as the constructor leaves them *)
Fixpoint closed (c : cls) (b : pobj snum) (x : sT) : option sT :=
  match x with
  | TInt _ => Some x | TofD d => if pureD d then Some x else None
  | TOp a x y => match closed c b x, closed c b y with Some x', Some y' => Some (TOp a x' y') | _, _ => None end
  | TNeg x => match closed c b x with Some x' => Some (TNeg x') | None => None end
  | TSqr x => match closed c b x with Some x' => Some (TSqr x') | None => None end
  | TPw x => match closed c b x with Some x' => Some (TPw x') | None => None end
  | TAt (AMem m) => if known (dyn_mask c) b m then match b_T b m with Some y => if pure y then Some y else None | None => None end else None
  | TAt (AMass p) => if p <? 4 then match nth_error (b_P b) p with Some (Some y, _) => if pure y then Some y else None | _ => None end else None
  | _ => None
  end.
Fixpoint labels (c : cls) (p n : nat) (z : list Z) : list (option bool) :=
  match n with 0 => [] | S n =>
    match leg c p, z with
    | Some false, x :: z' => Some (Z.eqb x 1) :: labels c (S p) n z'
    | _, _ => None :: labels c (S p) n z end end.
Definition label_of (c : cls) (z : list Z) (p : nat) : option bool := nth p (labels c 0 4 z) None.

Record row : Type := Row { w_t : tensor; w_r : id; w_ch : nat; w_p : pair2; w_c : sT }.
Fixpoint all_some {A B} (f : A -> option B) (l : list A) : option (list B) :=
  match l with [] => Some [] | x :: l' => match f x, all_some f l' with Some y, Some k => Some (y :: k) | _, _ => None end end.
Definition row_of (c : cls) (b : pobj snum) (t : tensor) (x : term) : option row :=
  match t_leafs x, t_dens x, closed c b (t_co x) with
  | [f; g], [(r, k)], Some y => Some (Row t r k (f, g) y)
  | _, _, _ => None end.
Definition rows_in (c : cls) (b b1 : pobj snum) (z : list Z) (mt : id * tensor) : option (list row) :=
  match pinner (Qj (thepat c)) c b1 (fst mt) z with
  | POk y => match flat (props c) (thepat c) (label_of c z) y with Some l => all_some (row_of c b (snd mt)) l | None => None end
  | _ => None end.
Definition rows_of (c : cls) (z : list Z) : option (list row) :=
  match shape c with
  | POk b => match after c (dyn_mask c) b (thepat c) with
             | POk (None, b1) => match all_some (rows_in c b b1 z) (structures c) with Some l => Some (concat l) | None => None end
             | _ => None end
  | _ => None end.
(** the boson of a propagator, with its mass and width *)
Definition boson_of (e : entry) (r : id) : boson :=
  if Pos.eqb r n_propZ then BZ else if Pos.eqb r n_propW then BW else if Pos.eqb r n_proph then Bh
  else if Pos.eqb r n_prop then match e_bosons e with [BA] => BA | _ => BW end else BA.
Definition rprops_of (c : cls) : option (list (id * (sT * sT))) :=
  match shape c with
  | POk b => all_some (fun r => match b_R b r with Some y => if negb (k_R (dyn_mask c) r) && pure (pr_m y) && pure (pr_w y) then Some (r, (pr_m y, pr_w y)) else None | None => None end) (props c)
  | _ => None end.

Definition the {A} (x : option (list A)) : list A := match x with Some l => l | None => [] end.
Definition code_tables : list (list row * list (id * (sT * sT))) :=
  Eval vm_compute in map (fun e => (the (rows_of (e_cls e) (hd [] (configs (e_cls e) []))), the (rprops_of (e_cls e)))) ff_entries.
Definition tabled : list (entry * (list row * list (id * (sT * sT)))) := combine ff_entries code_tables.
Lemma rows_ok : map (fun e => map (rows_of (e_cls e)) (configs (e_cls e) [])) ff_entries =
  map (fun et => map (fun _ => Some (fst (snd et))) (configs (e_cls (fst et)) [])) tabled.
Proof. vm_cast_no_check (eq_refl (map (fun et => map (fun _ => Some (fst (snd et))) (configs (e_cls (fst et)) [])) tabled)). Qed.
Lemma rprops_ok : map (fun e => rprops_of (e_cls e)) ff_entries = map (fun et => Some (snd (snd et))) tabled.
Proof. vm_cast_no_check (eq_refl (map (fun et => Some (snd (snd et))) tabled)). Qed.

(** ** Keys: products of spinor products in a fixed order *)
Definition key : Type := (tensor * boson * nat * pair2)%type.
Definition nleaf (f : leaf2) : bool * leaf2 := if f_L f <? f_R f then (false, f) else (true, Lf (f_angle f) (f_R f) (f_L f)).
Definition npair (m : pair2) : bool * pair2 :=
  let '(s, f) := nleaf (fst m) in let '(s', g) := nleaf (snd m) in (xorb s s', if f_L f <? f_L g then (f, g) else (g, f)).
Definition signed (s : bool) (x : R) : R := if s then Ropp x else x.
Definition bos_key (b : boson) : boson := match b with Bg => BA | _ => b end.
Definition chan (r c : nat) : nat :=
  match r, c with 0, 1 | 1, 0 | 2, 3 | 3, 2 => 0 | 0, 2 | 2, 0 | 1, 3 | 3, 1 => 1 | _, _ => 2 end.
Definition mkkey (t : tensor) (b : boson) (k : nat) (m : pair2) (x : R) : key * R :=
  let '(s, n) := npair m in ((t, bos_key b, k, n), signed s x).
(** A reflection of space exchanges angle and square products. *)
Definition swap1 (f : leaf2) : leaf2 := Lf (negb (f_angle f)) (f_L f) (f_R f).
Definition swap2 (m : pair2) : pair2 := (swap1 (fst m), swap1 (snd m)).
Definition code_keys (mirror : bool) (e : entry) (v : nat -> R) (t : list row) : list (key * R) :=
  map (fun w => mkkey (w_t w) (boson_of e (w_r w)) (w_ch w) (if mirror then swap2 (w_p w) else w_p w) (tden v (w_c w))) t.
Definition spec_keys (P : standard_model) (p : process) (bs : list boson) : list (key * R) :=
  flat_map (fun d => map (fun x => mkkey (d_colour p d) (d_boson d) (chan (d_r d) (d_c d)) (snd x) (d_sign d * fst x)%R) (dterms P p d)) (diagrams bs p).

Definition tensor_eqb (t u : tensor) : bool :=
  match t, u with
  | Tsinglet, Tsinglet => true
  | Tline a b, Tline a' b' => Nat.eqb a a' && Nat.eqb b b'
  | Tgluon g a b, Tgluon g' a' b' => Nat.eqb g g' && Nat.eqb a a' && Nat.eqb b b'
  | Tlines a b c d, Tlines a' b' c' d' | Texch a b c d, Texch a' b' c' d' => Nat.eqb a a' && Nat.eqb b b' && Nat.eqb c c' && Nat.eqb d d'
  | _, _ => false end.
Definition boson_eqb (a b : boson) : bool := match a, b with BA, BA | BZ, BZ | BW, BW | Bh, Bh | Bg, Bg => true | _, _ => false end.
Definition leaf_eqb (f g : leaf2) : bool := Bool.eqb (f_angle f) (f_angle g) && Nat.eqb (f_L f) (f_L g) && Nat.eqb (f_R f) (f_R g).
Definition key_eqb (x y : key) : bool :=
  let '(t, b, k, (f, g)) := x in let '(t', b', k', (f', g')) := y in
  tensor_eqb t t' && boson_eqb b b' && Nat.eqb k k' && leaf_eqb f f' && leaf_eqb g g'.
Ltac beqs := repeat match goal with
  | H : _ && _ = true |- _ => apply andb_prop in H as [? ?]
  | H : Nat.eqb _ _ = true |- _ => apply Nat.eqb_eq in H; subst
  | H : Bool.eqb _ _ = true |- _ => apply Bool.eqb_prop in H; subst end.
Lemma tensor_eqb_eq t u : tensor_eqb t u = true -> t = u.
Proof. destruct t, u; cbn [tensor_eqb]; intros H; try discriminate H; beqs; reflexivity. Qed.
Lemma leaf_eqb_eq f g : leaf_eqb f g = true -> f = g.
Proof. destruct f as [a l r], g as [a2 l2 r2]; unfold leaf_eqb; cbn [f_angle f_L f_R]; intros H; beqs; reflexivity. Qed.
Lemma key_eqb_eq x y : key_eqb x y = true -> x = y.
Proof.
  destruct x as [[[t b] k] [f g]], y as [[[t' b'] k'] [f' g']]. cbn [key_eqb]. intros H. beqs.
  repeat match goal with H : tensor_eqb _ _ = true |- _ => apply tensor_eqb_eq in H; subst | H : leaf_eqb _ _ = true |- _ => apply leaf_eqb_eq in H; subst end.
  destruct b, b'; try discriminate; reflexivity.
Qed.
Lemma tensor_eqb_refl t : tensor_eqb t t = true.
Proof. destruct t; cbn [tensor_eqb]; rewrite ?Nat.eqb_refl; reflexivity. Qed.
Lemma leaf_eqb_refl f : leaf_eqb f f = true.
Proof. unfold leaf_eqb. rewrite !Nat.eqb_refl, Bool.eqb_reflx. reflexivity. Qed.
Lemma key_eqb_refl x : key_eqb x x = true.
Proof. destruct x as [[[t b] k] [f g]]. cbn [key_eqb]. rewrite tensor_eqb_refl, Nat.eqb_refl, !leaf_eqb_refl. destruct b; reflexivity. Qed.

Fixpoint coef (l : list (key * R)) (k : key) : R :=
  match l with [] => 0%R | (k', x) :: l' => if key_eqb k' k then (x + coef l' k)%R else coef l' k end.
Fixpoint dedup (l : list key) : list key :=
  match l with [] => [] | x :: l' => let k := dedup l' in if existsb (key_eqb x) k then k else x :: k end.

(** ** Agreement, for all values of the parameters *)
Definition regular (P : standard_model) (bs : list boson) : Prop :=
  bs = [BA] \/ (sm_sw P <> 0 /\ sm_sw P * sm_sw P < 1 /\ sm_mW P <> 0)%R.
Fixpoint each {A} (f : A -> Prop) (l : list A) : Prop := match l with [] => True | x :: l' => f x /\ each f l' end.
Definition agrees (et : entry * (list row * list (id * (sT * sT)))) : Prop :=
  let e := fst et in let rows := fst (snd et) in let ps := snd (snd et) in forall v : nat -> R, let P := sm_of (e_cls e) v in regular P (e_bosons e) ->
  (exists (mirror : bool) (s : R), (s = 1 \/ s = -1)%R /\
    each (fun k => coef (code_keys mirror e v rows) k = (s * coef (spec_keys P (e_proc e) (e_bosons e)) k)%R)
      (dedup (map fst (code_keys mirror e v rows) ++ map fst (spec_keys P (e_proc e) (e_bosons e))))) /\
  each (fun x => tden v (fst (snd x)) = b_mass P (boson_of e (fst x)) /\ tden v (snd (snd x)) = b_width P (boson_of e (fst x))) ps.
Definition pick (i : nat) := nth i tabled (Entry eemmQED (l_ Fe, a_ Fe, l_ Fm, a_ Fm) [BA], ([], [])).

Lemma cw_pos s : (s * s < 1)%R -> (0 < sqrt (1 - s * s))%R.
Proof. intros H. apply sqrt_lt_R0. lra. Qed.
Lemma sqrt2_pos : (0 < sqrt 2)%R.
Proof. apply sqrt_lt_R0. lra. Qed.
Ltac nz := repeat split; try assumption; try (apply Rgt_not_eq; assumption).
Ltac fin := first [reflexivity | field; solve [nz] | field_simplify_eq; [match goal with H : (sqrt 2 * sqrt 2 = 2)%R |- _ => ring [H] end|solve [nz]]].
Ltac agree1 m s := exists m, s; split; [solve [left; reflexivity|right; reflexivity]|]; cbv -[IZR sqrt Rplus Rmult Rminus Rdiv Rinv Ropp]; repeat (apply conj; [solve [fin]|]); exact I.
Ltac agree :=
  unfold agrees; intros v; cbv zeta; intros Hreg; cbv -[IZR sqrt Rplus Rmult Rminus Rdiv Rinv Ropp Rlt] in Hreg;
  try (destruct Hreg as [Hreg|(Hs & Hc & Hm)]; [discriminate Hreg|]; pose proof (cw_pos _ Hc) as Hcw);
  pose proof sqrt2_pos as H2; pose proof (sqrt_sqrt 2 (Rlt_le 0 2 Rlt_0_2)) as H22;
  (split; [first [agree1 true 1%R | agree1 true (-1)%R | agree1 false 1%R | agree1 false (-1)%R]|cbv -[IZR sqrt Rplus Rmult Rminus Rdiv Rinv Ropp]; repeat apply conj; first [exact I|reflexivity|lra]]).
Lemma agrees_0 : agrees (pick 0).
Proof. agree. Qed.
Lemma agrees_1 : agrees (pick 1).
Proof. agree. Qed.
Lemma agrees_2 : agrees (pick 2).
Proof. agree. Qed.
Lemma agrees_3 : agrees (pick 3).
Proof. agree. Qed.
Lemma agrees_4 : agrees (pick 4).
Proof. agree. Qed.
Lemma agrees_5 : agrees (pick 5).
Proof. agree. Qed.
Lemma agrees_6 : agrees (pick 6).
Proof. agree. Qed.
Lemma agrees_7 : agrees (pick 7).
Proof. agree. Qed.
Lemma agrees_8 : agrees (pick 8).
Proof. agree. Qed.
Lemma agrees_9 : agrees (pick 9).
Proof. agree. Qed.
Lemma agrees_10 : agrees (pick 10).
Proof. agree. Qed.
Lemma agrees_11 : agrees (pick 11).
Proof. agree. Qed.
Lemma agrees_12 : agrees (pick 12).
Proof. agree. Qed.
Lemma agrees_13 : agrees (pick 13).
Proof. agree. Qed.
Lemma agrees_14 : agrees (pick 14).
Proof. agree. Qed.
Lemma agrees_15 : agrees (pick 15).
Proof. agree. Qed.
Lemma agrees_16 : agrees (pick 16).
Proof. agree. Qed.
Lemma agrees_17 : agrees (pick 17).
Proof. agree. Qed.
Lemma agrees_18 : agrees (pick 18).
Proof. agree. Qed.
Lemma agrees_19 : agrees (pick 19).
Proof. agree. Qed.
Lemma agrees_20 : agrees (pick 20).
Proof. agree. Qed.
Lemma agrees_21 : agrees (pick 21).
Proof. agree. Qed.
Lemma agrees_22 : agrees (pick 22).
Proof. agree. Qed.
Lemma agrees_23 : agrees (pick 23).
Proof. agree. Qed.
Lemma agrees_24 : agrees (pick 24).
Proof. agree. Qed.
Lemma agrees_25 : agrees (pick 25).
Proof. agree. Qed.
Lemma agrees_26 : agrees (pick 26).
Proof. agree. Qed.
Lemma agrees_27 : agrees (pick 27).
Proof. agree. Qed.
Lemma agrees_28 : agrees (pick 28).
Proof. agree. Qed.
Lemma agrees_29 : agrees (pick 29).
Proof. agree. Qed.
Lemma agrees_30 : agrees (pick 30).
Proof. agree. Qed.
Lemma agrees_31 : agrees (pick 31).
Proof. agree. Qed.
Lemma agrees_32 : agrees (pick 32).
Proof. agree. Qed.
Lemma agrees_33 : agrees (pick 33).
Proof. agree. Qed.
Lemma agrees_34 : agrees (pick 34).
Proof. agree. Qed.
Lemma agrees_35 : agrees (pick 35).
Proof. agree. Qed.
Lemma agrees_36 : agrees (pick 36).
Proof. agree. Qed.
Lemma agrees_37 : agrees (pick 37).
Proof. agree. Qed.
Lemma agrees_38 : agrees (pick 38).
Proof. agree. Qed.
Lemma agrees_39 : agrees (pick 39).
Proof. agree. Qed.
Lemma agrees_40 : agrees (pick 40).
Proof. agree. Qed.
Lemma table_agrees et : In et tabled -> agrees et.
Proof.
  intros H. destruct (In_nth _ _ (Entry eemmQED (l_ Fe, a_ Fe, l_ Fm, a_ Fm) [BA], ([], [])) H) as (i & Hi & <-). change (agrees (pick i)).
  assert (L : length tabled = 41) by reflexivity. rewrite L in Hi. clear H L.
  destruct i as [|i]; [exact agrees_0|].
  destruct i as [|i]; [exact agrees_1|].
  destruct i as [|i]; [exact agrees_2|].
  destruct i as [|i]; [exact agrees_3|].
  destruct i as [|i]; [exact agrees_4|].
  destruct i as [|i]; [exact agrees_5|].
  destruct i as [|i]; [exact agrees_6|].
  destruct i as [|i]; [exact agrees_7|].
  destruct i as [|i]; [exact agrees_8|].
  destruct i as [|i]; [exact agrees_9|].
  destruct i as [|i]; [exact agrees_10|].
  destruct i as [|i]; [exact agrees_11|].
  destruct i as [|i]; [exact agrees_12|].
  destruct i as [|i]; [exact agrees_13|].
  destruct i as [|i]; [exact agrees_14|].
  destruct i as [|i]; [exact agrees_15|].
  destruct i as [|i]; [exact agrees_16|].
  destruct i as [|i]; [exact agrees_17|].
  destruct i as [|i]; [exact agrees_18|].
  destruct i as [|i]; [exact agrees_19|].
  destruct i as [|i]; [exact agrees_20|].
  destruct i as [|i]; [exact agrees_21|].
  destruct i as [|i]; [exact agrees_22|].
  destruct i as [|i]; [exact agrees_23|].
  destruct i as [|i]; [exact agrees_24|].
  destruct i as [|i]; [exact agrees_25|].
  destruct i as [|i]; [exact agrees_26|].
  destruct i as [|i]; [exact agrees_27|].
  destruct i as [|i]; [exact agrees_28|].
  destruct i as [|i]; [exact agrees_29|].
  destruct i as [|i]; [exact agrees_30|].
  destruct i as [|i]; [exact agrees_31|].
  destruct i as [|i]; [exact agrees_32|].
  destruct i as [|i]; [exact agrees_33|].
  destruct i as [|i]; [exact agrees_34|].
  destruct i as [|i]; [exact agrees_35|].
  destruct i as [|i]; [exact agrees_36|].
  destruct i as [|i]; [exact agrees_37|].
  destruct i as [|i]; [exact agrees_38|].
  destruct i as [|i]; [exact agrees_39|].
  destruct i as [|i]; [exact agrees_40|].
  lia.
Qed.
