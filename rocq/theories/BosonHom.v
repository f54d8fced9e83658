(** * The Feynman rules of BosonSpec.v commute with homomorphisms

    Used in proofs only. *)
From Coq Require Import Reals ZArith List Bool Lra Lia.
From Verif Require Import Base Feynman BosonSpec.
Import ListNotations.
Open Scope nat_scope.

Section Hom.
  Context {K K' : Type} (O : ops K) (O' : ops K') (phi : K -> K').
  Hypothesis HZ : forall z, phi (o_Z O z) = o_Z O' z.
  Hypothesis HA : forall x y, phi (o_add O x y) = o_add O' (phi x) (phi y).
  Hypothesis HM : forall x y, phi (o_mul O x y) = o_mul O' (phi x) (phi y).
  Hypothesis HN : forall x, phi (o_neg O x) = o_neg O' (phi x).
  Definition vmap (v : vec K) : vec K' := Vec (phi (v_p v)) (phi (v_m v)) (phi (v_t v)) (phi (v_b v)).
  Definition dmap (s : dir K) : dir K' := Dir (phi (d_l0 s)) (phi (d_l1 s)) (phi (d_r0 s)) (phi (d_r1 s)).
  Definition fmap (x : fld K) : fld K' :=
    match x with Sca s => Sca (phi s) | Vct b v => Vct b (vmap v) | Psi f s => Psi f (dmap s) | Bar f s => Bar f (dmap s) end.
  Definition lmap (l : kleg K) : kleg K' := mkKleg (phi (k_x l)) (phi (k_y l)) (phi (k_c l)) (phi (k_s l)) (phi (k_im l)).
  Definition wmap (x : fld K * vec K) : fld K' * vec K' := (fmap (fst x), vmap (snd x)).
  Ltac hom := repeat progress rewrite ?HA, ?HM, ?HN, ?HZ.
  Ltac homs := unfold vmap, dmap; cbn [v_p v_m v_t v_b d_l0 d_l1 d_r0 d_r1]; hom; reflexivity.
  Lemma h_vadd v w : vmap (vaddK O v w) = vaddK O' (vmap v) (vmap w). Proof. unfold vaddK. homs. Qed.
  Lemma h_vneg v : vmap (vnegK O v) = vnegK O' (vmap v). Proof. unfold vnegK. homs. Qed.
  Lemma h_vscal a v : vmap (vscal O a v) = vscal O' (phi a) (vmap v). Proof. unfold vscal. homs. Qed.
  Lemma h_dscal a v : dmap (dscal O a v) = dscal O' (phi a) (dmap v). Proof. unfold dscal. homs. Qed.
  Lemma h_dot2 v w : phi (dot2 O v w) = dot2 O' (vmap v) (vmap w). Proof. unfold dot2. homs. Qed.
  Lemma h_rc v w : phi (rc O v w) = rc O' (dmap v) (dmap w). Proof. unfold rc. homs. Qed.
  Lemma h_slash v w : dmap (slashK O v w) = slashK O' (vmap v) (dmap w). Proof. unfold slashK. homs. Qed.
  Lemma h_rslash v w : dmap (rslash O v w) = rslash O' (dmap v) (vmap w). Proof. unfold rslash. homs. Qed.
  Lemma h_chir a b v : dmap (chirK O (a, b) v) = chirK O' (phi a, phi b) (dmap v). Proof. unfold chirK. cbn [fst snd]. homs. Qed.
  Lemma h_jvec v w : vmap (jvec O v w) = jvec O' (dmap v) (dmap w). Proof. unfold jvec. homs. Qed.

  Variables (E : consts K) (E' : consts K').
  Record consts_hom : Prop := mkCH {
    ch_half : phi (c_half E) = c_half E'; ch_third : phi (c_third E) = c_third E'; ch_sq2 : phi (c_sq2 E) = c_sq2 E'; ch_sw : phi (c_sw E) = c_sw E';
    ch_isw : phi (c_isw E) = c_isw E'; ch_cw : phi (c_cw E) = c_cw E'; ch_icw : phi (c_icw E) = c_icw E'; ch_mW : phi (c_mW E) = c_mW E';
    ch_imW : phi (c_imW E) = c_imW E'; ch_mh : phi (c_mh E) = c_mh E'; ch_fm : forall f, phi (c_fm E f) = c_fm E' f }.
  Hypothesis HC : consts_hom.
  Ltac homc := hom; rewrite ?(ch_half HC), ?(ch_third HC), ?(ch_sq2 HC), ?(ch_sw HC), ?(ch_isw HC), ?(ch_cw HC), ?(ch_icw HC), ?(ch_mW HC), ?(ch_imW HC), ?(ch_mh HC), ?(ch_fm HC).
  Lemma h_dot v w : phi (dotK O E v w) = dotK O' E' (vmap v) (vmap w). Proof. unfold dotK. homc. rewrite h_dot2. reflexivity. Qed.
  Lemma h_charge f : phi (chargeK O E f) = chargeK O' E' f. Proof. unfold chargeK. destruct (is_quark f), (is_up f); homc; reflexivity. Qed.
  Lemma h_isospin f : phi (isospinK O E f) = isospinK O' E' f. Proof. unfold isospinK. destruct (is_up f); homc; reflexivity. Qed.
  Lemma h_coupling b f : (phi (fst (couplingK O E b f)), phi (snd (couplingK O E b f))) = couplingK O' E' b f.
  Proof. unfold couplingK. destruct b; cbn [fst snd]; homc; rewrite ?h_charge, ?h_isospin; reflexivity. Qed.
  Lemma h_chirc b f c : dmap (chirK O (couplingK O E b f) c) = chirK O' (couplingK O' E' b f) (dmap c).
  Proof. rewrite <- h_coupling, <- h_chir. destruct (couplingK O E b f); reflexivity. Qed.
  Lemma h_yukawa f : phi (yukawaK O E f) = yukawaK O' E' f. Proof. unfold yukawaK. homc. reflexivity. Qed.
  Lemma h_hvv b : phi (hvv O E b) = hvv O' E' b. Proof. unfold hvv. destruct b; homc; reflexivity. Qed.
  Lemma h_hhh : phi (hhh O E) = hhh O' E'. Proof. unfold hhh. homc. reflexivity. Qed.
  Lemma h_vww b : phi (vww O E b) = vww O' E' b. Proof. unfold vww. destruct b; homc; reflexivity. Qed.
  Ltac homv := repeat progress rewrite ?h_vadd, ?h_vneg, ?h_vscal, ?h_dscal, ?h_dot, ?h_rc, ?h_slash, ?h_rslash, ?h_chirc, ?h_jvec, ?h_yukawa, ?h_hvv, ?h_hhh, ?h_vww.
  Lemma h_triple g v1 k1 v2 k2 k3 : vmap (triple O E g v1 k1 v2 k2 k3) = triple O' E' (phi g) (vmap v1) (vmap k1) (vmap v2) (vmap k2) (vmap k3).
  Proof. unfold triple. repeat (homv; homc). reflexivity. Qed.
  Lemma h_same x y : map fmap (same_pair O E x y) = same_pair O' E' (fmap x) (fmap y).
  Proof. destruct x as [s|[] u| |], y as [t|[] w| |]; try reflexivity; cbn [same_pair map fmap]; homc; homv; reflexivity. Qed.
  Lemma map_flat_map {A B C : Type} (f : B -> C) (g : A -> list B) l : map f (flat_map g l) = flat_map (fun x => map f (g x)) l.
  Proof. induction l as [|x l IH]; cbn [flat_map map]; [reflexivity|]. rewrite map_app, IH. reflexivity. Qed.
  Lemma flat_map_ext' {A B : Type} (f g : A -> list B) l : (forall x, f x = g x) -> flat_map f l = flat_map g l.
  Proof. intros H. induction l as [|x l IH]; cbn [flat_map]; [reflexivity|]. rewrite IH, H. reflexivity. Qed.
  Lemma h_ordered x k1 y k2 : map fmap (ordered_pair O E x k1 y k2) = ordered_pair O' E' (fmap x) (vmap k1) (fmap y) (vmap k2).
  Proof.
    destruct x as [s|b u|f r|f r], y as [t|b' w|g c|g c]; cbn [fmap]; unfold ordered_pair; cbv zeta; try reflexivity.
    - destruct b'; cbn [map fmap]; homv; homc; homv; reflexivity.
    - destruct (is_neutrino g); cbn [map fmap]; homv; homc; homv; reflexivity.
    - destruct (is_neutrino g); cbn [map fmap]; homv; homc; homv; reflexivity.
    - destruct b; reflexivity.
    - destruct b, b'; cbn [map fmap]; rewrite ?h_triple; homv; homc; homv; reflexivity.
    - destruct b; cbn [map]; (destruct (taken _ g) as [f'|]; [|reflexivity]); cbn [map fmap]; homv; reflexivity.
    - destruct b; cbn [map]; (destruct (before _ g) as [f'|]; [|reflexivity]); cbn [map fmap]; homv; reflexivity.
    - rewrite map_app. f_equal.
      + destruct (_ && _); cbn [map fmap]; homc; homv; reflexivity.
      + rewrite map_flat_map. apply flat_map_ext'. intros b. destruct (taken b g) as [f'|]; [|reflexivity].
        destruct (flavour_eqb f f'); cbn [map fmap]; homv; reflexivity.
  Qed.
  Lemma h_pair x y : map fmap (pair O E x y) = pair O' E' (wmap x) (wmap y).
  Proof. unfold pair. rewrite !map_app, h_same, !h_ordered. reflexivity. Qed.
  Variables (prop : nat -> ptype -> K) (prop' : nat -> ptype -> K').
  Hypothesis HP : forall j t, phi (prop j t) = prop' j t.
  Lemma h_line j k f r c : phi (line O E prop j k f r c) = line O' E' prop' j (vmap k) f (dmap r) (dmap c).
  Proof. unfold line. homc. rewrite HP. homc. homv. reflexivity. Qed.
  Lemma h_vex j k b u w : phi (vec_exchange O E prop j k b u w) = vec_exchange O' E' prop' j (vmap k) b (vmap u) (vmap w).
  Proof. unfold vec_exchange. destruct b; cbv zeta; homc; rewrite HP; homc; homv; reflexivity. Qed.
  Lemma h_exchange j k x y : phi (exchange O E prop j k x y) = exchange O' E' prop' j (vmap k) (fmap x) (fmap y).
  Proof.
    destruct x as [s|b u|f r|f r], y as [t|b' w|g c|g c]; cbn [fmap exchange]; homc; try reflexivity.
    - rewrite HP. homc. reflexivity.
    - destruct (vkind_eqb _ _); [apply h_vex|apply HZ].
    - destruct (flavour_eqb _ _); [apply h_line|apply HZ].
    - destruct (flavour_eqb _ _); [rewrite h_line, h_vneg; reflexivity|apply HZ].
  Qed.
  Lemma h_ksum l : phi (ksumK O l) = ksumK O' (map phi l).
  Proof. induction l as [|x l IH]; cbn [ksumK fold_right map]; [apply HZ|]. rewrite HA. f_equal. exact IH. Qed.
  Lemma h_channel j k l l' : phi (channel O E prop j k l l') = channel O' E' prop' j (vmap k) (map fmap l) (map fmap l').
  Proof.
    unfold channel. rewrite h_ksum. f_equal. induction l as [|x l IH]; cbn [flat_map map]; [reflexivity|]. rewrite map_app, IH. f_equal.
    rewrite !map_map. apply map_ext. intros y. apply h_exchange.
  Qed.
  Lemma h_quartic a b c d : phi (quartic O E a b c d) = quartic O' E' (vmap a) (vmap b) (vmap c) (vmap d).
  Proof. unfold quartic. homc. homv. reflexivity. Qed.
  Lemma h_kind b l : fields (of_kind b) (map fmap l) = map vmap (fields (of_kind b) l).
  Proof.
    unfold fields. rewrite map_flat_map. induction l as [|x l IH]; cbn [map flat_map]; [reflexivity|]. rewrite IH. f_equal.
    destruct x as [|b' v| |]; cbn [fmap of_kind]; try reflexivity. destruct (vkind_eqb b b'); reflexivity.
  Qed.
  Lemma h_sca l : fields of_sca (map fmap l) = map phi (fields of_sca l).
  Proof.
    unfold fields. rewrite map_flat_map. induction l as [|x l IH]; cbn [map flat_map]; [reflexivity|]. rewrite IH. f_equal.
    destruct x as [|b' v| |]; reflexivity.
  Qed.
  Lemma h_contact l : phi (contact O E l) = contact O' E' (map fmap l).
  Proof.
    unfold contact. rewrite !h_kind, h_sca. cbv zeta.
    destruct (fields (of_kind VWp) l) as [|a [|a' [|]]], (fields (of_kind VWm) l) as [|b [|b' [|]]]; cbn [map]; try apply HZ;
    destruct (fields (of_kind VZ) l) as [|z [|z' [|]]]; cbn [map]; try apply HZ;
    destruct (fields (of_kind VA) l) as [|g [|g' [|]]]; cbn [map]; try apply HZ;
    destruct (fields of_sca l) as [|s [|s' [|s2 [|s3 [|]]]]]; cbn [map]; try apply HZ; homc; rewrite ?h_quartic; homv; reflexivity.
  Qed.
  Lemma h_tree w w' : (forall k, (k < 4)%nat -> wmap (w k) = w' k) -> phi (tree O E prop w) = tree O' E' prop' w'.
  Proof.
    intros H. unfold tree. cbv zeta. rewrite !HA, !h_channel, !h_pair, h_contact, !h_vadd. cbn [map].
    rewrite <- !H by lia. reflexivity.
  Qed.
  Lemma h_mom l : vmap (momK O l) = momK O' (lmap l).
  Proof. unfold momK, lmap. cbv zeta. unfold vmap. cbn [v_p v_m v_t v_b k_x k_y k_c k_s]. hom. reflexivity. Qed.
  Lemma h_spinor anti l h : dmap (spinorK O anti l h) = spinorK O' anti (lmap l) h.
  Proof. unfold spinorK, lmap. cbv zeta. unfold dmap. cbn [d_l0 d_l1 d_r0 d_r1 k_x k_y k_c k_s]. destruct anti, h; hom; reflexivity. Qed.
  Lemma h_pol l h : vmap (polK O E l h) = polK O' E' (lmap l) h.
  Proof.
    unfold polK. cbv zeta. destruct (Z.eqb h 0); [|destruct (Z.ltb 0 h)]; rewrite h_vscal; unfold vmap, lmap; cbn [v_p v_m v_t v_b k_x k_y k_c k_s k_im]; homc; reflexivity.
  Qed.
  Lemma h_conj v : vmap (conjK v) = conjK (vmap v). Proof. reflexivity. Qed.
  Lemma h_wave t out l h : fmap (waveK O E t out l h) = waveK O' E' t out (lmap l) h.
  Proof.
    unfold waveK. cbv zeta. destruct t, out; cbn [fmap]; rewrite ?h_conj, ?h_pol, <- ?h_spinor; try reflexivity; rewrite HZ; reflexivity.
  Qed.
  Lemma h_amplitude leg leg' ts h : (forall k, (k < 4)%nat -> lmap (leg k) = leg' k) ->
    phi (amplitudeK O E prop leg ts h) = amplitudeK O' E' prop' leg' ts h.
  Proof.
    intros H. unfold amplitudeK. apply h_tree. intros k Hk. unfold wmap, outer. cbv zeta. cbn [fst snd]. rewrite h_wave, H by exact Hk. f_equal.
    unfold comes. destruct (2 <=? k); rewrite ?h_vneg, h_mom, H by exact Hk; reflexivity.
  Qed.
End Hom.

(** ** The amplitude uses the propagators of [poles] *)
Section Poles.
  Context {K : Type} (O : ops K) (E : consts K).
  Definition UO : ops unit := mkOps unit (fun _ => tt) (fun _ _ => tt) (fun _ _ => tt) (fun _ => tt).
  Definition UE : consts unit := mkConsts unit tt tt tt tt tt tt tt tt tt tt (fun _ => tt).
  Let u (_ : K) : unit := tt.
  Lemma exchanged_shape x y : exchanged (fmap u x) (fmap u y) = exchanged x y.
  Proof. destruct x, y; reflexivity. Qed.
  Lemma pair_shape x y : map (fmap u) (pair O E x y) = pair UO UE (wmap u x) (wmap u y).
  Proof. apply h_pair; try (intros; reflexivity). constructor; intros; reflexivity. Qed.
  Lemma vec_unit (v w : vec unit) : v = w.
  Proof. destruct v as [[] [] [] []], w as [[] [] [] []]. reflexivity. Qed.
  Lemma dir_unit (v w : dir unit) : v = w.
  Proof. destruct v as [[] [] [] []], w as [[] [] [] []]. reflexivity. Qed.
  Lemma outer_shape leg ts h k : wmap u (outer O E leg ts h k) = outer UO UE (fun _ => mkKleg tt tt tt tt tt) ts (fun _ => 0%Z) k.
  Proof.
    unfold wmap, outer. cbv zeta. cbn [fst snd]. f_equal; [|apply vec_unit].
    unfold waveK. cbv zeta. destruct (ts k), (2 <=? k); cbn [fmap]; f_equal; try apply vec_unit; apply dir_unit.
  Qed.
  Lemma exchange_poles (f g : nat -> ptype -> K) j k x y : (forall t, In t (exchanged x y) -> f j t = g j t) -> exchange O E f j k x y = exchange O E g j k x y.
  Proof.
    intros H. destruct x as [s|b v|a s|a s], y as [s'|b' v'|a' s'|a' s']; cbn [exchange exchanged] in *; try reflexivity.
    - rewrite (H Ph (or_introl eq_refl)). reflexivity.
    - destruct (vkind_eqb b' (antikind b)); [|reflexivity]. unfold vec_exchange. destruct b; rewrite (H _ (or_introl eq_refl)); reflexivity.
    - destruct (flavour_eqb a a'); [|reflexivity]. unfold line. rewrite (H _ (or_introl eq_refl)). reflexivity.
    - destruct (flavour_eqb a' a); [|reflexivity]. unfold line. rewrite (H _ (or_introl eq_refl)). reflexivity.
  Qed.
  Lemma amplitude_poles (f g : nat -> ptype -> K) leg ts h : (forall j t, In (j, t) (poles ts) -> f j t = g j t) ->
    amplitudeK O E f leg ts h = amplitudeK O E g leg ts h.
  Proof.
    intros H. unfold amplitudeK, tree. cbv zeta. set (w := outer O E leg ts h).
    assert (X : forall j a b c d,
      (forall t, In t (flat_map (fun x => flat_map (exchanged x) (pair UO UE (wmap u (w c)) (wmap u (w d)))) (pair UO UE (wmap u (w a)) (wmap u (w b)))) -> f j t = g j t) ->
      forall k, channel O E f j k (pair O E (w a) (w b)) (pair O E (w c) (w d)) = channel O E g j k (pair O E (w a) (w b)) (pair O E (w c) (w d))).
    { intros j a b c d HX k. unfold channel. f_equal. rewrite <- !pair_shape in HX. rewrite !flat_map_concat_map. f_equal. apply map_ext_in. intros x Hx. apply map_ext_in. intros y Hy.
      apply exchange_poles. intros t Ht. apply HX. apply in_flat_map. exists (fmap u x). split; [apply in_map; exact Hx|].
      apply in_flat_map. exists (fmap u y). split; [apply in_map; exact Hy|]. rewrite exchanged_shape. exact Ht. }
    assert (Y : forall k, wmap u (w k) = outer UO UE (fun _ => mkKleg tt tt tt tt tt) ts (fun _ => 0%Z) k) by (intros k; apply outer_shape).
    assert (Q : forall j a b c d, (j, a, b, c, d) = (0, 0, 1, 2, 3) \/ (j, a, b, c, d) = (1, 0, 2, 1, 3) \/ (j, a, b, c, d) = (2, 0, 3, 1, 2) ->
      forall k, channel O E f j k (pair O E (w a) (w b)) (pair O E (w c) (w d)) = channel O E g j k (pair O E (w a) (w b)) (pair O E (w c) (w d))).
    { intros j a b c d HQ. apply X. rewrite !Y. intros t Ht. apply H. unfold poles. cbv zeta. fold UO UE.
      rewrite !in_app_iff, !in_map_iff. destruct HQ as [HQ|[HQ|HQ]]; injection HQ as -> -> -> -> ->; [left|right; left|right; right]; exists t; (split; [reflexivity|exact Ht]). }
    rewrite (Q 0 0 1 2 3), (Q 1 0 2 1 3), (Q 2 0 3 1 2) by tauto. reflexivity.
  Qed.
End Poles.
