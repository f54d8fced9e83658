(** * Two and four gluons: the numerators squared, as polynomials

    Used in proofs only. *)
From Coq Require Import ZArith QArith List Bool String.
From Verif Require Import Base Scalar Lang Pure Sym SymEq SMNames SMRun SMTwins SMMasses SMAll SM04 SM07 SM08 SMChecks SMAmp2 SpinColour Covariant
  PropsWidth Gluons PropsGluons Feynman FeynmanFlat FeynmanTable BosonSpec Tower BosonCode.
Import ListNotations.
Close Scope Q_scope.
Open Scope nat_scope.

Definition qcd_entries : list (gluons * bentry) :=
  let on (n : string) := match find (fun g => String.eqb (g_name g) n) gluon_processes with Some g => g | None => mkGluons n n_amp (Tff 0 1 2 3) (Tff 0 2 1 3) 0 0 0 n_amp n_amp 0 end in
  [(on "ggdd", BEntry ggdd [PG; PG; Pf Fd; Pa Fd] Ka [] false [] EmptyString false);
   (on "gguu", BEntry gguu [PG; PG; Pf Fu; Pa Fu] Ka [] false [] EmptyString false);
   (on "gugu", BEntry gugu [PG; Pf Fu; PG; Pf Fu] Kb [] false [] EmptyString false);
   (on "dggd", BEntry dggd [Pf Fd; PG; PG; Pf Fd] Kc [] false [] EmptyString false);
   (on "gggg", BEntry gggg [PG; PG; PG; PG] Kd [] false [] EmptyString false)]%string.

(** the sum over the spins *)
Definition squares (g : gluons) (e : bentry) : option (setup * tow) :=
  match shape (b_cls e) with
  | POk b =>
      match after (b_cls e) (dyn_mask (b_cls e)) b (thepat (b_cls e)) with
      | POk (None, b1) =>
          match props_of e (setup0 e) no_dens with
          | Some pt =>
              let s := with_slots (setup0 e) (slots_for e (setup0 e) pt b1) in let d := dens_of s in let tab := members e s d b in
              match all_some (fun z =>
                match pinner (Qj (thepat (b_cls e))) (b_cls e) b1 (g_N g) z with
                | POk y => match ev_code e s d tab pt y with Some p => Some (Mu s p p) | None => None end
                | _ => None end) (configs (b_cls e) []) with
              | Some l => Some (s, fold_right wadd (WL 0) l)
              | None => None end
          | None => None end
      | _ => None end
  | _ => None end.
(** what it should be *)
Definition numerator2 {K} (O : ops K) (all : bool) (sg : Z) (gs m2 A B G : K) : K :=
  let sq x := o_mul O x x in let add := o_add O in let mul := o_mul O in let z n := o_Z O n in
  let AB := mul A B in
  mul (mul (z 8%Z) (sq (sq gs)))
    (if all then add (sq (sq A)) (add (sq (sq B)) (sq (sq G)))
     else mul (z sg) (add (add (mul AB (add (sq A) (sq B))) (mul (z (-4)%Z) (mul m2 (mul AB (add A B))))) (mul (z (-4)%Z) (mul (sq m2) (sq (add A B)))))).
Definition crossed (g : gluons) : Z := if Nat.eqb (g_G g) 0 then 1%Z else (-1)%Z.
Definition squares_agree (x : gluons * bentry) : bool :=
  let (g, e) := x in
  match squares g e with
  | Some (s, p) =>
      let m2 := let m := massP (legP s (g_q g)) in Mu s m m in
      let d k := wsub (invP s k) m2 in
      Zu s (dens_of s) (wsub p (numerator2 (PO s) (all_gluons g) (crossed g) (wvar vGS) m2 (d (g_A g)) (d (g_B g)) (invP s (g_G g))))
  | None => false end.
