(** * Text of vectors and matrices: C65 *)
From Coq Require Import Reals String Ascii.
From Coquelicot Require Import Complex.
From Verif Require Import Base Scalar RealNum Linear Strings PropsStrings Text.
Close Scope R_scope.
Open Scope string_scope.

(** ** What Mathematica reads as a number
    digits with an optional sign and an optional fraction, possibly times a power of ten. *)
Definition fraction (s : string) : Prop := s = "" \/ exists ds, all_digits ds = true /\ s = "." ++ ds.
Definition sign (s : string) : Prop := s = "" \/ s = "-".
Inductive m_number : string -> Prop :=
| MPlain : forall sg whole frac, sign sg -> all_digits whole = true -> fraction frac -> m_number (sg ++ whole ++ frac)
| MPower : forall sg whole frac esign ex, sign sg -> all_digits whole = true -> fraction frac ->
    (esign = "+" \/ esign = "-") -> all_digits ex = true -> m_number (sg ++ whole ++ frac ++ " 10^" ++ esign ++ ex).
(** the text is a list (of lists) of numbers re + I im *)
Definition m_vector (t : string) : Prop :=
  exists a b c d, m_number a /\ m_number b /\ m_number c /\ m_number d /\
    t = "{ " ++ a ++ " + I * " ++ b ++ " , " ++ c ++ " + I * " ++ d ++ " }".
Definition m_matrix (t : string) : Prop :=
  exists a b c d a' b' c' d', (m_number a /\ m_number b /\ m_number c /\ m_number d) /\
    (m_number a' /\ m_number b' /\ m_number c' /\ m_number d') /\
    t = "{ { " ++ a ++ " + I* " ++ b ++ " , " ++ c ++ " + I* " ++ d ++
        " } , { " ++ a' ++ " + I* " ++ b' ++ " , " ++ c' ++ " + I* " ++ d' ++ " } }".
(** the rendering of a finite number without an exponent: neither 1e-07 nor inf nor nan *)
Definition no_exponent (s : string) : bool := lacks "e" s && lacks "n" s.

(** ** Letters *)
Lemma digits_lack_any c s : is_digit c = false -> all_digits s = true -> lacks c s = true.
Proof.
  intros Hc. induction s as [|x s IH]; intros H; [reflexivity|].
  cbn [all_digits] in H. apply andb_true_iff in H. destruct H as [H1 H2].
  cbn [lacks]. rewrite (IH H2), andb_true_r. apply negb_true_iff, Ascii.eqb_neq. intros <-. congruence.
Qed.
Lemma fraction_lack c s : is_digit c = false -> Ascii.eqb c "." = false -> fraction s -> lacks c s = true.
Proof.
  intros Hc Hd [->|(ds & H & ->)]; [reflexivity|]. cbn [append lacks]. rewrite Hd. cbn [negb andb].
  exact (digits_lack_any c ds Hc H).
Qed.
Lemma sign_lack c s : Ascii.eqb c "-" = false -> sign s -> lacks c s = true.
Proof. intros Hc [->| ->]; [reflexivity|]. cbn [lacks]. rewrite Hc. reflexivity. Qed.
Lemma m_number_lack c s : is_digit c = false -> lacks c ".-+ 10^" = true -> m_number s -> lacks c s = true.
Proof.
  intros Hc Hl H. cbn [lacks] in Hl. repeat (apply andb_true_iff in Hl as [? Hl]). clear Hl.
  repeat match goal with K : negb _ = true |- _ => apply negb_true_iff in K end.
  destruct H as [sg whole frac Hs Hw Hf|sg whole frac esign ex Hs Hw Hf He Hx].
  - rewrite !lacks_app, (sign_lack c sg), (digits_lack_any c whole), (fraction_lack c frac) by assumption. reflexivity.
  - rewrite !lacks_app, (sign_lack c sg), (digits_lack_any c whole), (fraction_lack c frac), (digits_lack_any c ex) by assumption.
    cbn [lacks]. destruct He as [->| ->]; cbn [lacks];
      repeat match goal with K : Ascii.eqb c _ = false |- _ => rewrite K; clear K end; reflexivity.
Qed.
Lemma m_number_no_exponent s : m_number s -> no_exponent s = true.
Proof. intros H. unfold no_exponent. rewrite !m_number_lack by (reflexivity || exact H). reflexivity. Qed.
Lemma printed_plain s : printed s -> no_exponent s = true -> m_number s.
Proof.
  intros H E. unfold no_exponent in E. apply andb_true_iff in E as [E1 E2].
  destruct H as [sg whole frac Hs Hw Hf|sg whole frac esign ex Hs Hw Hf He Hx|sg word Hs Hw].
  - apply MPlain; assumption.
  - exfalso. rewrite !lacks_app in E1. cbn [lacks] in E1. change (Ascii.eqb "e" "e") with true in E1. cbn [negb andb] in E1.
    rewrite !andb_false_r in E1. discriminate E1.
  - exfalso. rewrite lacks_app in E2. destruct Hw as [->| ->]; cbn in E2; rewrite andb_false_r in E2; discriminate E2.
Qed.

(** double_to_Mathematica_string gives a number Mathematica can read, for every finite
    number, with sign, digits and exponent unchanged. *)
Theorem C65_one_number :
  forall s, printed s -> lacks "n" s = true -> m_number (mathematica s).
Proof.
  intros s H Hn. destruct H as [sg whole frac Hs Hw Hf|sg whole frac esign ex Hs Hw Hf He Hx|sg word Hs Hw].
  - assert (L : lacks "e" (sg ++ whole ++ frac) = true).
    { apply m_number_lack; [reflexivity|reflexivity|apply MPlain; assumption]. }
    rewrite (proj1 C39_first_e_replaced _ L). apply MPlain; assumption.
  - assert (L : lacks "e" (sg ++ whole ++ frac) = true).
    { apply m_number_lack; [reflexivity|reflexivity|apply MPlain; assumption]. }
    replace (sg ++ whole ++ frac ++ "e" ++ esign ++ ex) with ((sg ++ whole ++ frac) ++ "e" ++ (esign ++ ex)) by now rewrite !app_assoc_s.
    rewrite (proj2 C39_first_e_replaced _ _ L), !app_assoc_s. apply MPower; assumption.
  - exfalso. rewrite lacks_app in Hn. destruct Hw as [->| ->]; cbn in Hn; rewrite andb_false_r in Hn; discriminate Hn.
Qed.
Print Assumptions C65_one_number.

Section Claims.
  Context {num : Num}.
  Variable shw : T num -> string.
  Hypothesis Hp : forall x, printed (shw x).
  Definition vector_parts (v : cvector num) : list (T num) := [cre (cv0 v); cim (cv0 v); cre (cv1 v); cim (cv1 v)].
  Definition matrix_parts (m : cmatrix num) : list (T num) :=
    [cre (m00 m); cim (m00 m); cre (m01 m); cim (m01 m); cre (m10 m); cim (m10 m); cre (m11 m); cim (m11 m)].

  Lemma vector_iff v : m_vector (cvector_to_Mathematica_string shw v) <->
    forallb (fun x => no_exponent (shw x)) (vector_parts v) = true.
  Proof.
    split.
    - intros (a & b & c & d & Ha & Hb & Hc & Hd & E). unfold cvector_to_Mathematica_string in E.
      assert (K : forall ch, is_digit ch = false -> lacks ch ".-+ 10^{I*,}" = true ->
        forallb (fun x => lacks ch (shw x)) (vector_parts v) = true).
      { intros ch H1 H2. assert (H3 : lacks ch ".-+ 10^" = true).
        { change ".-+ 10^{I*,}" with (".-+ 10^" ++ "{I*,}") in H2. rewrite lacks_app in H2. apply andb_true_iff in H2. apply H2. }
        pose proof (f_equal (lacks ch) E) as F. rewrite !lacks_app in F.
        rewrite (m_number_lack ch a), (m_number_lack ch b), (m_number_lack ch c), (m_number_lack ch d) in F by assumption.
        cbn [lacks] in F, H2. repeat (apply andb_true_iff in H2 as [? H2]).
        repeat match goal with K : negb _ = true |- _ => rewrite K in F; clear K end. cbn [andb] in F.
        unfold vector_parts. cbn [forallb]. rewrite !andb_true_r in F. rewrite !andb_true_r. exact F. }
      pose proof (K "e"%char eq_refl eq_refl) as Ke. pose proof (K "n"%char eq_refl eq_refl) as Kn.
      rewrite forallb_forall in Ke, Kn |- *. intros x Hx. unfold no_exponent. rewrite (Ke x Hx), (Kn x Hx). reflexivity.
    - intros H. cbn [forallb vector_parts] in H. repeat (apply andb_true_iff in H as [? H]).
      eexists _, _, _, _. repeat split; try (apply printed_plain; [apply Hp|]; eassumption).
  Qed.
  Lemma matrix_iff m : m_matrix (cmatrix_to_Mathematica_string shw m) <->
    forallb (fun x => no_exponent (shw x)) (matrix_parts m) = true.
  Proof.
    split.
    - intros (a & b & c & d & a' & b' & c' & d' & (Ha & Hb & Hc & Hd) & (Ha' & Hb' & Hc' & Hd') & E). unfold cmatrix_to_Mathematica_string in E.
      assert (K : forall ch, is_digit ch = false -> lacks ch ".-+ 10^{I*,}" = true ->
        forallb (fun x => lacks ch (shw x)) (matrix_parts m) = true).
      { intros ch H1 H2. assert (H3 : lacks ch ".-+ 10^" = true).
        { change ".-+ 10^{I*,}" with (".-+ 10^" ++ "{I*,}") in H2. rewrite lacks_app in H2. apply andb_true_iff in H2. apply H2. }
        pose proof (f_equal (lacks ch) E) as F. rewrite !lacks_app in F.
        rewrite (m_number_lack ch a), (m_number_lack ch b), (m_number_lack ch c), (m_number_lack ch d) in F by assumption.
        rewrite (m_number_lack ch a'), (m_number_lack ch b'), (m_number_lack ch c'), (m_number_lack ch d') in F by assumption.
        cbn [lacks] in F, H2. repeat (apply andb_true_iff in H2 as [? H2]).
        repeat match goal with K : negb _ = true |- _ => rewrite K in F; clear K end. cbn [andb] in F.
        unfold matrix_parts. cbn [forallb]. rewrite !andb_true_r in F. rewrite !andb_true_r. exact F. }
      pose proof (K "e"%char eq_refl eq_refl) as Ke. pose proof (K "n"%char eq_refl eq_refl) as Kn.
      rewrite forallb_forall in Ke, Kn |- *. intros x Hx. unfold no_exponent. rewrite (Ke x Hx), (Kn x Hx). reflexivity.
    - intros H. cbn [forallb matrix_parts] in H. repeat (apply andb_true_iff in H as [? H]).
      eexists _, _, _, _, _, _, _, _. repeat split; try (apply printed_plain; [apply Hp|]; eassumption).
  Qed.
End Claims.

(** cvector::to_Mathematica_string and cmatrix::to_Mathematica_string do not use
    double_to_Mathematica_string: Mathematica can read the text exactly if no entry is
    printed with an exponent (or as inf or nan). *)
Theorem C65_mathematica_partial :
  forall (num : Num) (shw : T num -> string), (forall x, printed (shw x)) ->
  (forall v, m_vector (cvector_to_Mathematica_string shw v) <->
     forallb (fun x => no_exponent (shw x)) [cre (cv0 v); cim (cv0 v); cre (cv1 v); cim (cv1 v)] = true) /\
  (forall m, m_matrix (cmatrix_to_Mathematica_string shw m) <->
     forallb (fun x => no_exponent (shw x))
       [cre (m00 m); cim (m00 m); cre (m01 m); cim (m01 m); cre (m10 m); cim (m10 m); cre (m11 m); cim (m11 m)] = true).
Proof.
  intros num shw Hp. split; [intros v; exact (vector_iff shw Hp v)|intros m; exact (matrix_iff shw Hp m)].
Qed.
Print Assumptions C65_mathematica_partial.

(** A stream prints the number 0.0000001 as 1e-07.  Then the text of a vector or matrix with
    this entry is not one that Mathematica can read. *)
Definition tenth7 : R := (/ 10 ^ 7)%R.
Definition show (x : R) : string := if Req_EM_T x tenth7 then "1e-07" else "0".
Theorem C65_mathematica_refuted :
  exists shw : T (RN true 0) -> string,
    (forall x, printed (shw x)) /\ shw tenth7 = "1e-07" /\
    ~ m_vector (cvector_to_Mathematica_string (num:=RN true 0) shw (CV (num:=RN true 0) (RtoC tenth7) (RtoC 0))) /\
    ~ m_matrix (cmatrix_to_Mathematica_string (num:=RN true 0) shw (CM (num:=RN true 0) (RtoC tenth7) (RtoC 0) (RtoC 0) (RtoC 1))).
Proof.
  assert (P : forall x, printed (show x)).
  { intros x. unfold show. destruct (Req_EM_T x tenth7).
    + apply (PrintedExp "" "1" "" "-" "07"); auto.
    + apply (PrintedFixed "" "0" ""); auto. }
  assert (E : show tenth7 = "1e-07"). { unfold show. destruct (Req_EM_T tenth7 tenth7) as [_|N]; [reflexivity|contradiction]. }
  exists show. split; [exact P|]. split; [exact E|]. destruct (C65_mathematica_partial (RN true 0) show P) as [HV HM]. split.
  - intros K. apply HV in K. cbn [forallb cv0] in K. apply andb_true_iff in K as [K _]. cbn in K. rewrite E in K. discriminate K.
  - intros K. apply HM in K. cbn [forallb m00] in K. apply andb_true_iff in K as [K _]. cbn in K. rewrite E in K. discriminate K.
Qed.
Print Assumptions C65_mathematica_refuted.

(** ** The text says which entries were printed *)
Lemma split_at c : forall a a' b b', lacks c a = true -> lacks c a' = true ->
  a ++ String c b = a' ++ String c b' -> a = a' /\ b = b'.
Proof.
  induction a as [|x a IH]; intros [|x' a'] b b' Ha Ha' E; cbn in E.
  - injection E as ->. auto.
  - injection E as -> _. cbn [lacks] in Ha'. rewrite Ascii.eqb_refl in Ha'. discriminate Ha'.
  - injection E as <- _. cbn [lacks] in Ha. rewrite Ascii.eqb_refl in Ha. discriminate Ha.
  - injection E as <- E. cbn [lacks] in Ha, Ha'. apply andb_true_iff in Ha as [_ Ha]. apply andb_true_iff in Ha' as [_ Ha'].
    destruct (IH a' b b' Ha Ha' E) as [-> ->]. auto.
Qed.
Lemma printed_lack c s : is_digit c = false -> lacks c ".-+einfa" = true -> printed s -> lacks c s = true.
Proof.
  intros Hc Hl H. cbn [lacks] in Hl. repeat (apply andb_true_iff in Hl as [? Hl]). clear Hl.
  repeat match goal with K : negb _ = true |- _ => apply negb_true_iff in K end.
  destruct H as [sg whole frac Hs Hw Hf|sg whole frac esign ex Hs Hw Hf He Hx|sg word Hs Hw].
  - rewrite !lacks_app, (sign_lack c sg), (digits_lack_any c whole), (fraction_lack c frac) by assumption. reflexivity.
  - rewrite !lacks_app, (sign_lack c sg), (digits_lack_any c whole), (fraction_lack c frac), (digits_lack_any c ex) by assumption.
    cbn [lacks]. destruct He as [->| ->]; cbn [lacks];
      repeat match goal with K : Ascii.eqb c _ = false |- _ => rewrite K; clear K end; reflexivity.
  - rewrite lacks_app, (sign_lack c sg) by assumption. destruct Hw as [->| ->]; cbn [lacks];
      repeat match goal with K : Ascii.eqb c _ = false |- _ => rewrite K; clear K end; reflexivity.
Qed.
Lemma tail c a b : String c a = String c b -> a = b.
Proof. congruence. Qed.
Ltac cut L E :=
  repeat (cbn [append] in E;
    match type of E with
    | String ?c _ = String ?c _ => apply (tail c) in E
    | _ ++ String ?c _ = _ ++ String ?c _ =>
        apply (split_at c) in E; [destruct E as [? E]|apply L; reflexivity|apply L; reflexivity]
    end).
(** Two vectors (matrices) with the same text have entries that print alike. *)
Theorem C65_unambiguous :
  forall (num : Num) (shw : T num -> string), (forall x, printed (shw x)) ->
  (forall v w, (cvector_to_string shw v = cvector_to_string shw w \/
                cvector_to_Mathematica_string shw v = cvector_to_Mathematica_string shw w) ->
     map shw [cre (cv0 v); cim (cv0 v); cre (cv1 v); cim (cv1 v)] =
     map shw [cre (cv0 w); cim (cv0 w); cre (cv1 w); cim (cv1 w)]) /\
  (forall which v w, which <> 1%Z -> cvector_to_string_which shw which v = cvector_to_string_which shw which w ->
     map shw [cabs (cv0 v); carg (cv0 v); cabs (cv1 v); carg (cv1 v)] =
     map shw [cabs (cv0 w); carg (cv0 w); cabs (cv1 w); carg (cv1 w)]) /\
  (forall m m', cmatrix_to_string shw m = cmatrix_to_string shw m' ->
     map shw [cre (m00 m); cim (m00 m); cre (m01 m); cim (m01 m); cre (m10 m); cim (m10 m); cre (m11 m); cim (m11 m)] =
     map shw [cre (m00 m'); cim (m00 m'); cre (m01 m'); cim (m01 m'); cre (m10 m'); cim (m10 m'); cre (m11 m'); cim (m11 m')]).
Proof.
  intros num shw Hp.
  assert (L : forall c, is_digit c = false -> lacks c ".-+einfa" = true -> forall x, lacks c (shw x) = true).
  { intros c H1 H2 x. apply printed_lack; auto. }
  split; [|split].
  - intros v w [E|E]; [unfold cvector_to_string, shwc in E|unfold cvector_to_Mathematica_string in E]; rewrite ?app_assoc_s in E; cut L E; cbn [map]; congruence.
  - intros which v w Hw E. unfold cvector_to_string_which in E. apply Z.eqb_neq in Hw. rewrite Hw in E. cut L E; cbn [map]; congruence.
  - intros m m' E. unfold cmatrix_to_string in E. cut L E; cbn [map]; congruence.
Qed.
Print Assumptions C65_unambiguous.

(** operator<<: the stream keeps what it holds, and a vector and a matrix written one after
    the other can be told apart. *)
Lemma prefix_app a : forall b, String.prefix a (a ++ b) = true.
Proof. induction a as [|c a IH]; intros b; [destruct b; reflexivity|]. cbn. destruct (Ascii.ascii_dec c c); [apply IH|congruence]. Qed.
Lemma app_cancel a : forall b b', a ++ b = a ++ b' -> b = b'.
Proof. induction a as [|c a IH]; intros b b' E; [exact E|]. injection E as E. exact (IH _ _ E). Qed.
Theorem C65_stream :
  forall (num : Num) (shw : T num -> string), (forall x, printed (shw x)) -> forall out,
  (forall v, String.prefix out (cvector_print shw out v) = true) /\
  (forall m, String.prefix out (cmatrix_print shw out m) = true) /\
  (forall v v' m m', cmatrix_print shw (cvector_print shw out v) m = cmatrix_print shw (cvector_print shw out v') m' ->
     map shw [cre (cv0 v); cim (cv0 v); cre (cv1 v); cim (cv1 v)] =
     map shw [cre (cv0 v'); cim (cv0 v'); cre (cv1 v'); cim (cv1 v')] /\
     map shw [cre (m00 m); cim (m00 m); cre (m01 m); cim (m01 m); cre (m10 m); cim (m10 m); cre (m11 m); cim (m11 m)] =
     map shw [cre (m00 m'); cim (m00 m'); cre (m01 m'); cim (m01 m'); cre (m10 m'); cim (m10 m'); cre (m11 m'); cim (m11 m')]).
Proof.
  intros num shw Hp out. unfold cvector_print, cmatrix_print. split; [intros; apply prefix_app|]. split; [intros; apply prefix_app|].
  intros v v' m m' E. rewrite !app_assoc_s in E. apply app_cancel in E.
  assert (L : forall c, is_digit c = false -> lacks c ".-+einfa" = true -> forall x, lacks c (shw x) = true).
  { intros c H1 H2 x. apply printed_lack; auto. }
  unfold cvector_to_string, cmatrix_to_string, shwc in E. rewrite ?app_assoc_s in E. cut L E. cbn [map]. split; congruence.
Qed.
Print Assumptions C65_stream.
Example C65_stream_ex : forall (num : Num) (x : CX num), String.prefix "p = " (cvector_print (num:=num) (fun _ => "1e-07") "p = " (CV x x)) = true /\
  printed "1e-07".
Proof.
  intros num x. assert (P : printed "1e-07") by (apply (PrintedExp "" "1" "" "-" "07"); auto). split; [|exact P].
  exact (proj1 (C65_stream num (fun _ => "1e-07") (fun _ => P) "p = ") (CV x x)).
Qed.

(** The hypotheses are met by the printing function above; numbers that Mathematica can read
    and one that it cannot. *)
Example C65_ex :
  (forall x, printed (show x)) /\ m_number "-12.5" /\ m_number (mathematica "1e-07") /\ ~ m_number "1e-07".
Proof.
  split; [|split; [|split]].
  - intros x. unfold show. destruct (Req_EM_T x tenth7).
    + apply (PrintedExp "" "1" "" "-" "07"); auto.
    + apply (PrintedFixed "" "0" ""); auto.
  - apply (MPlain "-" "12" ".5"); [right|reflexivity|right; exists "5"]; auto.
  - apply (MPower "" "1" "" "-" "07"); [left|reflexivity|left|right|reflexivity]; reflexivity.
  - intros H. pose proof (m_number_no_exponent _ H) as K. discriminate K.
Qed.
