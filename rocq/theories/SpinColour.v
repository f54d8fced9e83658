(** * Spins and colours of a process

    The textbook side of C48: which spin configurations the external particles of a process
    have, in which colours they come, and the colour tensors its amplitudes go with.  All of
    it is read off the name of the process class (SM/*.cpp), nothing off its code. *)
From Coq Require Import Reals QArith Qreals String Ascii Lra Lia.
From Coquelicot Require Import Complex.
From Verif Require Import Base Scalar RealNum Lang SMNames SMAmp2.
Close Scope Q_scope.
Close Scope R_scope.
Open Scope nat_scope.

(** ** The external particles
    One letter each: leptons e m l, quarks u c t d s b, neutrinos n (in the names longer
    than four letters ne and nm), photon A, gluon g, W, Z, Higgs boson h.  The suffixes 2
    and QED tell processes with the same letters apart; eemmQED2 is user-dir/eemm.cpp. *)
Fixpoint neutrinos (l : list ascii) : list ascii :=
  match l with
  | [] => []
  | a :: l' => a :: (if Ascii.eqb a "n"%char then match l' with [] => [] | _ :: l'' => neutrinos l'' end else neutrinos l')
  end.
Definition suffix (a : ascii) : bool := existsb (Ascii.eqb a) (list_ascii_of_string "2QED").
Definition legs_of (name : string) : list ascii :=
  let l := filter (fun a => negb (suffix a)) (list_ascii_of_string name) in
  if Nat.eqb (length l) 4 then l else neutrinos l.
Definition legs (c : cls) : list ascii := legs_of (c_name c).
Definition one_of (s : string) (a : ascii) : bool := existsb (Ascii.eqb a) (list_ascii_of_string s).

(** twice the spin component or helicity, as an argument of amp; nothing for particles
    with a single state *)
Definition states (a : ascii) : list (list Z) :=
  (if one_of "hn" a then [[]]
  else if one_of "Ag" a then [[-2]; [2]]
  else if one_of "WZ" a then [[-2]; [0]; [2]]
  else [[-1]; [1]])%Z.
Definition colours (a : ascii) : nat :=
  if one_of "ucdstb" a then 3 else if one_of "g" a then 8 else 1.
Fixpoint cart {A} (ll : list (list A)) : list (list A) :=
  match ll with [] => [[]] | l :: ll' => flat_map (fun x => map (cons x) (cart ll')) l end.

(** Polarised: the initial photons and gluons, in order, have the helicities [pol]. *)
Fixpoint polarised (pol : list Z) (ls : list ascii) : list (list (list Z)) :=
  match ls with
  | [] => []
  | a :: ls' =>
      match pol with
      | z :: pol' => if one_of "Ag" a then [[z]] :: polarised pol' ls' else states a :: polarised pol ls'
      | [] => states a :: polarised [] ls'
      end
  end.
Definition configs (c : cls) (pol : list Z) : list (list Z) := map (@concat Z) (cart (polarised pol (legs c))).
Definition colourings (c : cls) : list (list nat) := cart (map (fun a => seq 0 (colours a)) (legs c)).

(** Final particles that cannot be told apart: two photons, gluons, Z or Higgs bosons, and
    the processes in which both carry the same charge. *)
Definition identical (c : cls) : bool :=
  match legs c with
  | [_; _; a; b] =>
      Ascii.eqb a b && (one_of "AgZh" a || existsb (String.eqb (c_name c)) ["eeee2"; "uuuu2"; "dddd2"; "WWWW"; "nenenene2"]%string)
  | _ => false
  end.
(** what the sum is divided by: the states and colours of the two initial particles, and 2
    for identical final ones *)
Definition average (c : cls) (pol : list Z) : nat :=
  match polarised pol (legs c), legs c with
  | s1 :: s2 :: _, a :: b :: _ =>
      length s1 * length s2 * colours a * colours b * (if identical c then 2 else 1)
  | _, _ => 1
  end.

(** ** Colour *)
Open Scope C_scope.
Definition r3 : R := (/ sqrt 3)%R.
(** the Gell-Mann matrices *)
Definition gell_mann (a i j : nat) : C :=
  match a, i, j with
  | 0, 0, 1 => RtoC 1 | 0, 1, 0 => RtoC 1
  | 1, 0, 1 => Copp Ci | 1, 1, 0 => Ci
  | 2, 0, 0 => RtoC 1 | 2, 1, 1 => RtoC (-1)
  | 3, 0, 2 => RtoC 1 | 3, 2, 0 => RtoC 1
  | 4, 0, 2 => Copp Ci | 4, 2, 0 => Ci
  | 5, 1, 2 => RtoC 1 | 5, 2, 1 => RtoC 1
  | 6, 1, 2 => Copp Ci | 6, 2, 1 => Ci
  | 7, 0, 0 => RtoC r3 | 7, 1, 1 => RtoC r3 | 7, 2, 2 => RtoC (-2 * r3)%R
  | _, _, _ => RtoC 0
  end%nat.
Definition generator (a i j : nat) : C := RtoC (/ 2)%R * gell_mann a i j.
Fixpoint Csum {A} (f : A -> C) (l : list A) : C := match l with [] => RtoC 0 | x :: l' => f x + Csum f l' end.

(** Colour tensors.  A quark line goes from leg [i] into leg [o]. *)
Inductive tensor : Type :=
| Tsinglet
| Tline (o i : nat)                    (* delta_oi *)
| Tgluon (g o i : nat)                 (* T^g_oi, g the leg of the gluon *)
| Tlines (o i o' i' : nat)             (* delta_oi delta_o'i' *)
| Texch (o i o' i' : nat).             (* sum_a T^a_oi T^a_o'i' *)
Definition delta (i j : nat) : C := if Nat.eqb i j then RtoC 1 else RtoC 0.
Definition tensor_at (t : tensor) (col : list nat) : C :=
  let c k := nth k col 0%nat in
  match t with
  | Tsinglet => RtoC 1
  | Tline o i => delta (c o) (c i)
  | Tgluon g o i => generator (c g) (c o) (c i)
  | Tlines o i o' i' => delta (c o) (c i) * delta (c o') (c i')
  | Texch o i o' i' => Csum (fun a => generator a (c o) (c i) * generator a (c o') (c i')) (seq 0 8)
  end.

Fixpoint where_ (p : ascii -> bool) (k : nat) (ls : list ascii) : list nat :=
  match ls with [] => [] | a :: ls' => if p a then k :: where_ p (S k) ls' else where_ p (S k) ls' end.
(** The amplitudes of a process and their colour tensors.  With four quarks the lines are
    those of the exchanged particle: s for q q' > q'' q''' with q' an antiquark annihilating,
    t for 1 > 3, u for 1 > 4. *)
Definition four_quarks (name : string) : list (id * tensor) :=
  let is := fun l => existsb (String.eqb name) l in
  if is ["ubdt"]%string then [(n_amp, Tlines 2 0 3 1)]
  else if is ["udtb"]%string then [(n_amp, Tlines 1 0 2 3)]
  else if is ["uucc"; "uuss"; "ddss"]%string then [(n_amp_rest, Tlines 1 0 2 3); (n_amp_gluon, Texch 1 0 2 3)]
  else if is ["ucuc"; "usus"; "dsds"]%string then [(n_amp_rest, Tlines 2 0 3 1); (n_amp_gluon, Texch 2 0 3 1)]
  else if is ["uudd"]%string then
    [(n_amp_rest, Tlines 1 0 2 3); (n_amp_gluon, Texch 1 0 2 3); (n_amp_W, Tlines 2 0 1 3)]
  else if is ["udud"]%string then
    [(n_amp_rest, Tlines 2 0 3 1); (n_amp_gluon, Texch 2 0 3 1); (n_amp_W, Tlines 3 0 2 1)]
  else if is ["uuuu"; "dddd"]%string then
    [(n_amp_rest_S, Tlines 1 0 2 3); (n_amp_gluon_S, Texch 1 0 2 3);
     (n_amp_rest_T, Tlines 2 0 1 3); (n_amp_gluon_T, Texch 2 0 1 3)]
  else if is ["uuuu2"; "dddd2"]%string then
    [(n_amp_rest_T, Tlines 2 0 3 1); (n_amp_gluon_T, Texch 2 0 3 1);
     (n_amp_rest_U, Tlines 3 0 2 1); (n_amp_gluon_U, Texch 3 0 2 1)]
  else [].
Definition structures (c : cls) : list (id * tensor) :=
  match where_ (one_of "ucdstb") 0 (legs c), where_ (one_of "g") 0 (legs c) with
  | [], [] => [(n_amp, Tsinglet)]
  | [i; o], [] => [(n_amp, Tline o i)]
  | [i; o], [g] => [(n_amp, Tgluon g o i)]
  | [_; _; _; _], [] => four_quarks (c_name c)
  | _, _ => []
  end.
(** the amplitude of a spin and colour configuration *)
Definition amplitude (c : cls) (M : id -> list Z -> C) (s : list Z) (col : list nat) : C :=
  Csum (fun mt => tensor_at (snd mt) col * M (fst mt) s) (structures c).

(** ** The colour sums *)
Definition dq (i j : nat) : Q := if Nat.eqb i j then 1%Q else 0%Q.
Definition fierz (o i o' i' : nat) : Q := ((1 # 2) * (dq o i' * dq i o' - (1 # 3) * (dq o i * dq o' i')))%Q.
(** |T^a_ij|^2 *)
Definition gen2 (a i j : nat) : Q :=
  match a, i, j with
  | 0, 0, 1 => (1 # 4)%Q | 0, 1, 0 => (1 # 4)%Q
  | 1, 0, 1 => (1 # 4)%Q | 1, 1, 0 => (1 # 4)%Q
  | 2, 0, 0 => (1 # 4)%Q | 2, 1, 1 => (1 # 4)%Q
  | 3, 0, 2 => (1 # 4)%Q | 3, 2, 0 => (1 # 4)%Q
  | 4, 0, 2 => (1 # 4)%Q | 4, 2, 0 => (1 # 4)%Q
  | 5, 1, 2 => (1 # 4)%Q | 5, 2, 1 => (1 # 4)%Q
  | 6, 1, 2 => (1 # 4)%Q | 6, 2, 1 => (1 # 4)%Q
  | 7, 0, 0 => (1 # 12)%Q | 7, 1, 1 => (1 # 12)%Q | 7, 2, 2 => (1 # 3)%Q
  | _, _, _ => 0%Q
  end%nat.
Definition real_at (t : tensor) (col : list nat) : option Q :=
  let c k := nth k col 0%nat in
  match t with
  | Tsinglet => Some 1%Q
  | Tline o i => Some (dq (c o) (c i))
  | Tgluon _ _ _ => None
  | Tlines o i o' i' => Some (dq (c o) (c i) * dq (c o') (c i'))%Q
  | Texch o i o' i' =>
      if (c o <? 3) && (c i <? 3) && (c o' <? 3) && (c i' <? 3) then Some (fierz (c o) (c i) (c o') (c i')) else None
  end%nat.
Definition prod_at (t t' : tensor) (col : list nat) : option Q :=
  match t, t' with
  | Tgluon g o i, Tgluon g' o' i' =>
      if Nat.eqb g g' && Nat.eqb o o' && Nat.eqb i i' then Some (gen2 (nth g col 0) (nth o col 0) (nth i col 0))%nat else None
  | _, _ => match real_at t col, real_at t' col with Some p, Some q => Some (p * q)%Q | _, _ => None end
  end.

Lemma r3_sq : (r3 * r3 = / 3)%R.
Proof.
  unfold r3. rewrite <- Rinv_mult. f_equal. apply sqrt_sqrt. lra.
Qed.
Lemma delta_q i j : delta i j = RtoC (Q2R (dq i j)).
Proof. unfold delta, dq. destruct (Nat.eqb i j); unfold Q2R; cbn; f_equal; lra. Qed.
Lemma RtoC_eq (z : C) r : Re z = r -> Im z = 0%R -> z = RtoC r.
Proof. destruct z as [x y]. unfold Re, Im. cbn. intros -> ->. reflexivity. Qed.
Lemma fierz_ok o i o' i' : (o < 3)%nat -> (i < 3)%nat -> (o' < 3)%nat -> (i' < 3)%nat ->
  Csum (fun a => generator a o i * generator a o' i') (seq 0 8) = RtoC (Q2R (fierz o i o' i')).
Proof.
  intros H1 H2 H3 H4. pose proof r3_sq as H.
  destruct o as [|[|[|o]]]; try lia; destruct i as [|[|[|i]]]; try lia;
    destruct o' as [|[|[|o']]]; try lia; destruct i' as [|[|[|i']]]; try lia;
    (apply RtoC_eq; unfold generator, fierz, dq, Q2R; cbn; lra).
Qed.
Lemma gen2_ok a i j : generator a i j * Cconj (generator a i j) = RtoC (Q2R (gen2 a i j)).
Proof.
  pose proof r3_sq as H.
  destruct a as [|[|[|[|[|[|[|[|a]]]]]]]]; destruct i as [|[|[|i]]]; destruct j as [|[|[|j]]];
    (apply RtoC_eq; unfold generator, gen2, Q2R; cbn; lra).
Qed.
Lemma real_ok t col q : real_at t col = Some q -> tensor_at t col = RtoC (Q2R q).
Proof.
  destruct t as [|o i|g o i|o i o' i'|o i o' i']; cbn [real_at tensor_at]; try discriminate.
  - intros [= <-]. unfold Q2R. cbn. f_equal. lra.
  - intros [= <-]. apply delta_q.
  - intros [= <-]. rewrite !delta_q, Q2R_mult, RtoC_mult. reflexivity.
  - destruct (_ && _) eqn:E; [|discriminate]. intros [= <-].
    repeat (apply andb_prop in E as [E ?]). apply fierz_ok; apply Nat.ltb_lt; assumption.
Qed.
Lemma Cconj_RtoC r : Cconj (RtoC r) = RtoC r.
Proof. unfold Cconj, RtoC. cbn. f_equal. lra. Qed.
Lemma prod_ok t t' col q : prod_at t t' col = Some q -> tensor_at t col * Cconj (tensor_at t' col) = RtoC (Q2R q).
Proof.
  assert (K : match real_at t col, real_at t' col with Some p, Some q => Some (p * q)%Q | _, _ => None end = Some q ->
    tensor_at t col * Cconj (tensor_at t' col) = RtoC (Q2R q)).
  { destruct (real_at t col) as [p|] eqn:E1; [|discriminate]. destruct (real_at t' col) as [p'|] eqn:E2; [|discriminate].
    intros [= <-]. rewrite (real_ok _ _ _ E1), (real_ok _ _ _ E2), Cconj_RtoC, Q2R_mult, RtoC_mult. reflexivity. }
  destruct t as [|o i|g o i|o i o' i'|o i o' i'], t' as [|o1 i1|g1 o1 i1|o1 i1 o1' i1'|o1 i1 o1' i1']; try exact K.
  cbn [prod_at]. destruct (_ && _) eqn:E; [|discriminate]. intros [= <-].
  repeat (apply andb_prop in E as [E ?]).
  repeat match goal with H : Nat.eqb _ _ = true |- _ => apply Nat.eqb_eq in H; subst end.
  apply gen2_ok.
Qed.
Fixpoint gram (t t' : tensor) (cs : list (list nat)) : option Q :=
  match cs with
  | [] => Some 0%Q
  | col :: cs' => match prod_at t t' col, gram t t' cs' with Some p, Some q => Some (Qred (p + q)) | _, _ => None end
  end.
Lemma Qred_R q : Q2R (Qred q) = Q2R q.
Proof. apply Qeq_eqR, Qred_correct. Qed.

(** ** The sum over colours as a quadratic form in the amplitudes *)
Fixpoint form_row (cs : list (list nat)) (m : id) (t : tensor) (r : list (id * tensor)) : option (list (Q * (list Z -> key))) :=
  match r with
  | [] => Some []
  | (m', t') :: r' =>
      match gram t t' cs, form_row cs m t r' with
      | Some g, Some a => Some (if Qeq_bool g 0 then a else ((2 * g)%Q, fun s => KRe m s m' s) :: a)
      | _, _ => None
      end
  end.
Fixpoint form (cs : list (list nat)) (l : list (id * tensor)) : option (list (Q * (list Z -> key))) :=
  match l with
  | [] => Some []
  | (m, t) :: r =>
      match gram t t cs, form_row cs m t r, form cs r with
      | Some g, Some a, Some b => Some ((g, fun s => KAbs m s) :: a ++ b)
      | _, _, _ => None
      end
  end.

Open Scope R_scope.
Lemma Cmod2 (z : C) : Cmod z ^ 2 = fst z ^ 2 + snd z ^ 2.
Proof.
  unfold Cmod. rewrite <- Rsqr_pow2. apply Rsqr_sqrt. destruct z as [x y]. cbn [fst snd].
  pose proof (Rle_0_sqr x). pose proof (Rle_0_sqr y). rewrite <- !Rsqr_pow2. lra.
Qed.
Lemma Cmod2_plus (z w : C) : Cmod (z + w)%C ^ 2 = Cmod z ^ 2 + Cmod w ^ 2 + 2 * Re (z * Cconj w)%C.
Proof. rewrite !Cmod2. destruct z, w. cbn. ring. Qed.
Section Form.
  Variables (st : bool) (eps : R).
  Variable M : id -> list Z -> C.
  Variable s : list Z.
  Notation kv := (keyval st eps M).
  Lemma gram_ok t t' z w : forall cs g, gram t t' cs = Some g ->
    Rsum (fun col => Re (tensor_at t col * z * Cconj (tensor_at t' col * w))%C) cs = Q2R g * Re (z * Cconj w)%C.
  Proof.
    induction cs as [|col cs IH]; cbn [gram Rsum]; intros g.
    - intros [= <-]. unfold Q2R. cbn. ring.
    - destruct (prod_at t t' col) as [p|] eqn:E; [|discriminate]. destruct (gram t t' cs) as [q|]; [|discriminate].
      intros Eg. assert (Eg' : Q2R g = Q2R p + Q2R q) by (rewrite <- Q2R_plus; apply Qeq_eqR; rewrite <- (Qred_correct (p + q)); set (z0 := Qred (p + q)%Q) in *; clearbody z0; injection Eg as ->; reflexivity).
      rewrite (IH q eq_refl), Eg'. clear Eg Eg'.
      assert (K : (tensor_at t col * z * Cconj (tensor_at t' col * w) = RtoC (Q2R p) * (z * Cconj w))%C).
      { rewrite <- (prod_ok _ _ _ _ E). destruct (tensor_at t col), (tensor_at t' col), z, w.
        unfold Cconj, Cmult. cbn. f_equal; ring. }
      rewrite K. destruct z, w. cbn. ring.
  Qed.
  Notation tot := (fun (l : list (id * tensor)) col => Csum (fun mt => (tensor_at (snd mt) col * M (fst mt) s)%C) l).
  Notation val := (Rsum (fun e : Q * (list Z -> key) => Q2R (fst e) * kv (snd e s))).
  Lemma row_ok cs m t : forall r a, form_row cs m t r = Some a ->
    2 * Rsum (fun col => Re (tensor_at t col * M m s * Cconj (tot r col))%C) cs = val a.
  Proof.
    induction r as [|[m' t'] r IH]; cbn [form_row]; intros a.
    - intros [= <-]. cbn [Csum Rsum]. rewrite (Rsum_ext _ (fun _ => 0)), Rsum_zero; [ring|].
      intros col _. destruct (tensor_at t col), (M m s). cbn. ring.
    - destruct (gram t t' cs) as [g|] eqn:EG; [|discriminate]. destruct (form_row cs m t r) as [a'|]; [|discriminate].
      intros Ea.
      assert (K : 2 * Rsum (fun col => Re (tensor_at t col * M m s * Cconj (tot ((m', t') :: r) col))%C) cs =
                  2 * (Q2R g * Re (M m s * Cconj (M m' s))%C) + val a').
      { rewrite <- (IH a' eq_refl), <- (gram_ok t t' (M m s) (M m' s) cs g EG), <- Rmult_plus_distr_l, <- Rsum_plus. f_equal.
        apply Rsum_ext. intros col _. cbn [Csum fst snd].
        set (f := Csum _ r). destruct (tensor_at t col), (tensor_at t' col), (M m s), (M m' s), f. cbn. ring. }
      rewrite K. destruct (Qeq_bool g 0) eqn:E0; injection Ea as <-.
      + rewrite (Qeq_eqR _ _ (Qeq_bool_eq _ _ E0)). unfold Q2R at 1. cbn. ring.
      + cbn [Rsum fst snd keyval]. rewrite Q2R_mult. assert (E2 : Q2R 2 = 2) by (unfold Q2R; cbn; lra). rewrite E2. ring.
  Qed.
  Lemma form_ok cs : forall l a, form cs l = Some a -> Rsum (fun col => Cmod (tot l col) ^ 2) cs = val a.
  Proof.
    induction l as [|[m t] l IH]; cbn [form]; intros a.
    - intros [= <-]. cbn [Csum Rsum]. rewrite (Rsum_ext _ (fun _ => 0)), Rsum_zero; [reflexivity|].
      intros col _. rewrite Cmod_0. ring.
    - destruct (gram t t cs) as [g|] eqn:EG; [|discriminate]. destruct (form_row cs m t l) as [b|] eqn:ER; [|discriminate].
      destruct (form cs l) as [d|]; [|discriminate]. intros [= <-]. cbn [Rsum fst snd keyval].
      rewrite Rsum_app, <- (IH d eq_refl), <- (row_ok cs m t l b ER).
      assert (E : Q2R g * Cmod (M m s) ^ 2 = Rsum (fun col => Cmod (tensor_at t col * M m s)%C ^ 2) cs).
      { transitivity (Q2R g * Re (M m s * Cconj (M m s))%C).
        { rewrite Cmod2. destruct (M m s). cbn. ring. }
        rewrite <- (gram_ok t t (M m s) (M m s) cs g EG). apply Rsum_ext. intros col _. rewrite Cmod2.
        destruct (tensor_at t col), (M m s). cbn. ring. }
      rewrite E, <- Rsum_mult, <- !Rsum_plus. apply Rsum_ext. intros col _. cbn [Csum fst snd]. rewrite Cmod2_plus. ring.
  Qed.
End Form.
