(** * Property C39: Mathematica number strings *)
From Coq Require Import String Ascii.
From Verif Require Import Base Strings.
Open Scope string_scope.

(** The letter c does not occur in s. *)
Fixpoint lacks (c : ascii) (s : string) : bool :=
  match s with
  | EmptyString => true
  | String d s' => negb (Ascii.eqb c d) && lacks c s'
  end.

Lemma app_assoc_s (a b c : string) : (a ++ b) ++ c = a ++ (b ++ c).
Proof. induction a as [|x a IH]; simpl; congruence. Qed.
Lemma lacks_app c a b : lacks c (a ++ b) = lacks c a && lacks c b.
Proof. induction a as [|x a IH]; simpl; [reflexivity|]. now rewrite IH, andb_assoc. Qed.
Lemma index_lacks s : lacks "e" s = true -> index 0 "e" s = None.
Proof.
  induction s as [|x s IH]; intros H; [reflexivity|].
  cbn [lacks] in H. apply andb_true_iff in H. destruct H as [H1 H2].
  cbn [index]. rewrite (IH H2). cbn [prefix].
  destruct (ascii_dec "e" x) as [<-|N]; [discriminate|reflexivity].
Qed.
Lemma index_found a b : lacks "e" a = true -> index 0 "e" (a ++ "e" ++ b) = Some (String.length a).
Proof.
  induction a as [|x a IH]; intros H.
  - cbn. destruct b; reflexivity.
  - cbn [lacks] in H. apply andb_true_iff in H. destruct H as [H1 H2].
    cbn [append index String.length prefix] in *. rewrite (IH H2).
    destruct (ascii_dec "e" x) as [<-|N]; [discriminate|reflexivity].
Qed.
Lemma substring_prefix a b : substring 0 (String.length a) (a ++ b) = a.
Proof.
  induction a as [|x a IH]; simpl; [destruct b; reflexivity|]. now rewrite IH.
Qed.
Lemma substring_all b n : String.length b <= n -> substring 0 n b = b.
Proof.
  revert n; induction b as [|x b IH]; intros [|n] H; simpl in *; try reflexivity; try lia.
  now rewrite IH by lia.
Qed.
Lemma substring_suffix a b n : String.length b <= n -> substring (String.length a) n (a ++ b) = b.
Proof. intros H. induction a as [|x a IH]; [apply substring_all, H|exact IH]. Qed.
Lemma length_app_s a b : String.length (a ++ b) = String.length a + String.length b.
Proof. induction a as [|x a IH]; simpl; auto. Qed.

Lemma mathematica_split a b : lacks "e" a = true -> mathematica (a ++ "e" ++ b) = a ++ " 10^" ++ b.
Proof.
  intros H. unfold mathematica. rewrite (index_found a b H). unfold replace_at.
  rewrite substring_prefix. f_equal. f_equal.
  replace (String.length a + 1) with (String.length (a ++ "e")) by (rewrite length_app_s; reflexivity).
  rewrite <- app_assoc_s. apply substring_suffix. rewrite !length_app_s. simpl. lia.
Qed.

Lemma digits_lack s : all_digits s = true -> lacks "e" s = true.
Proof.
  induction s as [|x s IH]; intros H; [reflexivity|].
  cbn [all_digits] in H. apply andb_true_iff in H. destruct H as [H1 H2].
  cbn [lacks]. rewrite (IH H2), andb_true_r. apply negb_true_iff, Ascii.eqb_neq.
  intros <-. discriminate.
Qed.

(** Every text without an "e" is unchanged; in every text with an "e" exactly the first
    one becomes " 10^". *)
Theorem C39_first_e_replaced :
  (forall s, lacks "e" s = true -> mathematica s = s) /\
  (forall a b, lacks "e" a = true -> mathematica (a ++ "e" ++ b) = a ++ " 10^" ++ b).
Proof.
  split; [|exact mathematica_split].
  intros s H. unfold mathematica. now rewrite (index_lacks s H).
Qed.
Print Assumptions C39_first_e_replaced.

(** For every text an output stream prints for a number: the result has no exponent
    letter, and it is the text itself if that has no exponent, otherwise mantissa,
    " 10^", exponent. *)
Theorem C39_mathematica_number :
  forall s, printed s ->
    lacks "e" (mathematica s) = true /\
    ((lacks "e" s = true /\ mathematica s = s) \/
     (exists mantissa ex, s = mantissa ++ "e" ++ ex /\ lacks "e" mantissa = true /\
        lacks "e" ex = true /\ mathematica s = mantissa ++ " 10^" ++ ex)).
Proof.
  assert (F : forall frac, (frac = "" \/ exists ds, all_digits ds = true /\ frac = "." ++ ds) ->
                lacks "e" frac = true).
  { intros frac [->|(ds & H & ->)]; [reflexivity|]. exact (digits_lack ds H). }
  assert (S : forall sign, (sign = "" \/ sign = "-") -> lacks "e" sign = true)
    by (intros sign [->| ->]; reflexivity).
  intros s H. destruct H as [sign whole frac Hs Hw Hf|sign whole frac esign ex Hs Hw Hf He Hx|sign word Hs Hw].
  - assert (L : lacks "e" (sign ++ whole ++ frac) = true).
    { now rewrite !lacks_app, (S _ Hs), (digits_lack _ Hw), (F _ Hf). }
    unfold mathematica. rewrite (index_lacks _ L). auto.
  - assert (L : lacks "e" (sign ++ whole ++ frac) = true).
    { now rewrite !lacks_app, (S _ Hs), (digits_lack _ Hw), (F _ Hf). }
    assert (L2 : lacks "e" (esign ++ ex) = true).
    { rewrite lacks_app, (digits_lack _ Hx). destruct He as [->| ->]; reflexivity. }
    assert (E : sign ++ whole ++ frac ++ "e" ++ esign ++ ex = (sign ++ whole ++ frac) ++ "e" ++ (esign ++ ex)).
    { now rewrite !app_assoc_s. }
    rewrite E, (mathematica_split _ _ L). split.
    + now rewrite (lacks_app _ (sign ++ whole ++ frac)), (lacks_app _ " 10^"), L, L2.
    + right. exists (sign ++ whole ++ frac), (esign ++ ex). auto.
  - assert (L : lacks "e" (sign ++ word) = true).
    { rewrite lacks_app, (S _ Hs). destruct Hw as [->| ->]; reflexivity. }
    unfold mathematica. rewrite (index_lacks _ L). auto.
Qed.
Print Assumptions C39_mathematica_number.

Example C39_example :
  printed "-1.5e-07" /\ mathematica "-1.5e-07" = "-1.5 10^-07" /\
  printed "3.25" /\ mathematica "3.25" = "3.25" /\ printed "-nan" /\ mathematica "-nan" = "-nan".
Proof.
  split; [|split; [reflexivity|split; [|split; [reflexivity|split; [|reflexivity]]]]].
  - apply (PrintedExp "-" "1" ".5" "-" "07"); auto. right. exists "5". auto.
  - apply (PrintedFixed "" "3" ".25"); auto. right. exists "25". auto.
  - apply (PrintedSpecial "-" "nan"); auto.
Qed.
