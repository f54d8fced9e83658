(** * double_to_Mathematica_string (source/utilities.cpp 38-52)

    The text [num] which operator<< produced for the number is an input: the formatting
    done by the standard library is not modelled.  What its results look like is said in
    [printed]. *)
From Coq Require Import String Ascii.
From Verif Require Import Base.
Open Scope string_scope.

(** num.replace(pos,n,t) *)
Definition replace_at (num : string) (pos n : nat) (t : string) : string :=
  substring 0 pos num ++ t ++ substring (pos + n) (String.length num) num.

(** Lines 45-51: find the first "e", replace it if there is one. *)
Definition mathematica (num : string) : string :=
  match index 0 "e" num with
  | Some epos => replace_at num epos 1 " 10^"
  | None => num
  end.

(** ** The texts an output stream produces for a floating-point number

    [iostream.format] defers to printf's %g with the given precision (C standard
    7.21.6.1): an optional minus sign, digits with an optional fraction, and either no
    exponent or e, a sign and digits; or inf or nan. *)
Definition is_digit (c : ascii) : bool :=
  (Ascii.leb "0" c && Ascii.leb c "9")%char.
Fixpoint all_digits (s : string) : bool :=
  match s with
  | EmptyString => true
  | String c s' => is_digit c && all_digits s'
  end.
Inductive printed : string -> Prop :=
| PrintedFixed : forall sign whole frac, (sign = "" \/ sign = "-") ->
    all_digits whole = true -> (frac = "" \/ exists ds, all_digits ds = true /\ frac = "." ++ ds) ->
    printed (sign ++ whole ++ frac)
| PrintedExp : forall sign whole frac esign ex, (sign = "" \/ sign = "-") ->
    all_digits whole = true -> (frac = "" \/ exists ds, all_digits ds = true /\ frac = "." ++ ds) ->
    (esign = "+" \/ esign = "-") -> all_digits ex = true ->
    printed (sign ++ whole ++ frac ++ "e" ++ esign ++ ex)
| PrintedSpecial : forall sign word, (sign = "" \/ sign = "-") ->
    (word = "inf" \/ word = "nan") -> printed (sign ++ word).
