(** * The checks behind the theorems on all process classes, evaluated once *)
From Coq Require Import QArith String Ascii Lia.
From Verif Require Import Base Scalar Linear Integers Particle Sproduct Propagator Process
  ParticleProofs Ready ParticleClaims SpecSproduct WorldProofs Lang LangFrame Pure PureProofs ReadOnly Sym SMNames
  SMRun SMTwins SMMasses SMAll.
Close Scope Q_scope.
Open Scope st_scope.

(** Calls: set_masses and set_v replace parameters; set_momenta and the amp2 that takes
    momenta replace momenta; the others only read. *)
Definition reader (m : id) : bool :=
  negb (is_setter m || Pos.eqb m n_set_momenta || Pos.eqb m n_amp2_momenta).
(** methods without parameters: amp2 and its polarised variants; in five classes amp *)
Definition argless (c : cls) (m : id) : Prop :=
  exists f, find_meth c m = Some f /\ m_params f = [].

Definition argless_list (c : cls) : list id :=
  flat_map (fun f => match m_params f with [] => [m_name f] | _ => [] end) (c_methods c).

(** ** Which external particles are massless: by the letters of the class name

    Photons (A), gluons (g) and neutrinos (n, ne, nm) are massless; the Higgs (h) needs no
    particular mass; all others are massive.  In the eight names with ne and nm the
    neutrinos have two letters. *)
Definition leg_names (name : string) : string :=
  if String.eqb name "eenene" || String.eqb name "eenmnm" then "eenn"
  else if String.eqb name "enenee" then "enne"
  else if String.eqb name "enmenm" then "enen"
  else if String.eqb name "nenenene" || String.eqb name "nenenene2" ||
          String.eqb name "nenenmnm" || String.eqb name "nenmnenm" then "nnnn"
  else name.
Definition leg_kind (x : ascii) : option bool :=      (* Some true: massless; None: either *)
  if Ascii.eqb x "A" || Ascii.eqb x "g" || Ascii.eqb x "n" then Some true
  else if Ascii.eqb x "h" then None else Some false.
Definition leg (c : cls) (p : nat) : option bool :=
  match String.get p (leg_names (c_name c)) with Some x => leg_kind x | None => None end.
Definition fits (c : cls) (pat : nat -> bool) : bool :=
  forallb (fun p => match leg c p with Some z => Bool.eqb z (pat p) | None => true end) (seq 0 4).
(** every method answers; with the right masses it returns a number *)
Definition per_pat (c : cls) (d : mask) (b : pobj snum) (ms : list id) (pat : nat -> bool) : bool :=
  match after c d b pat with
  | POk (None, b1) =>
      forallb (fun m => match answer c pat m b1 with PNone => false | POk (Some _, _) => true | _ => negb (fits c pat) end) ms
  | _ => false
  end.
Definition checks (c : cls) : bool :=
  forallb (fun f => is_setter (m_name f) || method_ok c (dyn_mask c) (m_name f)) (c_methods c) &&
  forallb (fun f => negb (reader (m_name f)) || method_reads c (m_name f)) (c_methods c) &&
  takes_momenta c &&
  match shape c with POk b => has_masses b && forallb (per_pat c (dyn_mask c) b (argless_list c)) all_pats | _ => false end.
Definition checks_m (c : cls) : bool :=
  forallb (fun f => Pos.eqb (m_name f) n_set_v || method_ok c (mass_mask c) (m_name f)) (c_methods c) &&
  match find_meth c n_set_masses with
  | None => true
  | Some _ => sm_sig c &&
      match shape c with
      | POk b => match setm c b with POk b2 => closed c b b2 | _ => false end
      | _ => false
      end
  end.
Lemma sm_checks : forallb checks sm_classes = true.
Proof. vm_cast_no_check (eq_refl true). Qed.
Lemma sm_checks_m : forallb checks_m sm_classes = true.
Proof. vm_cast_no_check (eq_refl true). Qed.

Lemma find_meth_in c m f : find_meth c m = Some f -> In f (c_methods c) /\ m_name f = m.
Proof.
  unfold find_meth. intros H. apply find_some in H as [H1 H2]. apply Pos.eqb_eq in H2. auto.
Qed.
Section Use.
  Variable c : cls.
  Hypothesis Hc : In c sm_classes.
  Lemma check_c : checks c = true.
  Proof. exact (proj1 (forallb_forall _ _) sm_checks c Hc). Qed.
  Lemma check_mc : checks_m c = true.
  Proof. exact (proj1 (forallb_forall _ _) sm_checks_m c Hc). Qed.
  Lemma dyn_ok m : is_setter m = false -> method_ok c (dyn_mask c) m = true.
  Proof.
    intros H. pose proof check_c as K. apply andb_prop in K as [K _]. apply andb_prop in K as [K _]. apply andb_prop in K as [K _].
    unfold method_ok. destruct (find_meth c m) as [f|] eqn:E; [|reflexivity].
    destruct (find_meth_in c m f E) as [Hf Hn]. rewrite forallb_forall in K. specialize (K f Hf). rewrite Hn, H in K.
    unfold method_ok in K. cbn [orb] in K. rewrite E in K. exact K.
  Qed.
  Lemma mass_ok m : Pos.eqb m n_set_v = false -> method_ok c (mass_mask c) m = true.
  Proof.
    intros H. pose proof check_mc as K. apply andb_prop in K as [K _].
    unfold method_ok. destruct (find_meth c m) as [f|] eqn:E; [|reflexivity].
    destruct (find_meth_in c m f E) as [Hf Hn]. rewrite forallb_forall in K. specialize (K f Hf). rewrite Hn, H in K.
    unfold method_ok in K. cbn [orb] in K. rewrite E in K. exact K.
  Qed.
  Lemma reads_ok m : reader m = true -> method_reads c m = true.
  Proof.
    intros H. pose proof check_c as K. apply andb_prop in K as [K _]. apply andb_prop in K as [K _]. apply andb_prop in K as [_ K].
    unfold method_reads. destruct (find_meth c m) as [f|] eqn:E; [|reflexivity].
    destruct (find_meth_in c m f E) as [Hf Hn]. rewrite forallb_forall in K. specialize (K f Hf). rewrite Hn, H in K.
    unfold method_reads in K. cbn [orb negb] in K. rewrite E in K. exact K.
  Qed.
  Lemma takes_c : takes_momenta c = true.
  Proof. pose proof check_c as K. apply andb_prop in K as [K _]. apply andb_prop in K as [_ K]. exact K. Qed.
  Lemma shape_c : exists b, shape c = POk b /\ has_masses b = true /\
    forallb (answers c (dyn_mask c) b (argless_list c)) all_pats = true.
  Proof.
    pose proof check_c as K. apply andb_prop in K as [_ K].
    destruct (shape c) as [|e|b]; try discriminate K. apply andb_prop in K as [K1 K2]. exists b. split; [reflexivity|]. split; [exact K1|].
    rewrite forallb_forall in K2 |- *. intros pat Hp. specialize (K2 pat Hp). unfold per_pat in K2. unfold answers.
    destruct (after c (dyn_mask c) b pat) as [|e|[[y|] b1]]; try discriminate K2.
    rewrite forallb_forall in K2 |- *. intros m Hm. specialize (K2 m Hm). destruct (answer c pat m b1); [discriminate K2|reflexivity|reflexivity].
  Qed.
  Lemma setm_c b f : find_meth c n_set_masses = Some f -> shape c = POk b ->
    sm_sig c = true /\ exists b2, setm c b = POk b2 /\ closed c b b2 = true.
  Proof.
    intros E EB. pose proof check_mc as K. apply andb_prop in K as [_ K]. rewrite E, EB in K.
    apply andb_prop in K as [K1 K]. split; [exact K1|]. destruct (setm c b) as [|e|b2]; try discriminate K. eauto.
  Qed.
  Lemma argless_in m : argless c m -> In m (argless_list c).
  Proof.
    intros (f & E & EP). destruct (find_meth_in c m f E) as [Hf Hn]. apply in_flat_map. exists f. split; [exact Hf|].
    rewrite EP. left. exact Hn.
  Qed.
End Use.

Definition returns (c : cls) (d : mask) (b : pobj snum) (ms : list id) (pat : nat -> bool) : bool :=
  match after c d b pat with
  | POk (None, b1) => forallb (fun m => match answer c pat m b1 with POk (Some _, _) => true | _ => false end) ms
  | _ => false
  end.
Definition check45 (c : cls) : bool :=
  match shape c with
  | POk b => forallb (fun pat => negb (fits c pat) || returns c (dyn_mask c) b (argless_list c) pat) all_pats
  | _ => false
  end.

Lemma check45_c c : In c sm_classes -> check45 c = true.
Proof.
  intros Hc. pose proof (check_c c Hc) as K. apply andb_prop in K as [_ K]. unfold check45. destruct (shape c) as [|e|b]; try discriminate K.
  apply andb_prop in K as [_ K]. rewrite forallb_forall in K |- *. intros pat Hp. specialize (K pat Hp). unfold per_pat in K. unfold returns.
  destruct (fits c pat); [cbn [negb orb]|reflexivity]. destruct (after c (dyn_mask c) b pat) as [|e|[[y|] b1]]; try discriminate K.
  rewrite forallb_forall in K |- *. intros m Hm. specialize (K m Hm). destruct (answer c pat m b1) as [|e|[[y|] b3]]; try discriminate K; reflexivity.
Qed.
