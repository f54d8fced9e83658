(** * A program using the library: many particles, many spinor products

    The objects of a client program and the calls it may make on them, in any order.
    Exceptions are caught by the client.  Destruction of particles is not modelled
    (a destroyed particle would be an address outside the heap). *)
From Verif Require Import Base Scalar Linear Particle Sproduct.
Open Scope st_scope.

Section World.
  Context {num : Num}.
  Notation T := (T num).
  Notation CX := (CX num).
  Notation particle := (particle num).
  Notation sproduct := (sproduct num).

  Record world : Type := mkWorld { w_heap : heap num; w_sps : list sproduct }.

  Inductive wcall : Type :=
  | WDefault (g : nat -> T)                               (* particle() *)
  | WMass (g : nat -> T) (mass : T)                       (* particle(mass) *)
  | WMom (g : nat -> T) (q : mom num) (mass : T)          (* particle(q,mass) *)
  | WPart (a : addr) (o : pcall num)                      (* any call on particle a *)
  | WSDefault                                             (* sproduct() *)
  | WSMake (angle : bool) (pL : addr) (iLU : bool) (mid : list addr) (pR : addr) (iRU : bool)
  | WSAssign (i j : nat)                                  (* sproduct i = sproduct j *)
  | WUpdate (i : nat)
  | WV0 (i : nat)
  | WV1 (i : nat) (spin : Z)
  | WV2 (i : nat) (spinL spinR : Z).

  Inductive wval : Type :=
  | RUnit
  | RPart (v : pval num)
  | RVal (x : CX).

  Fixpoint lset {A} (l : list A) (i : nat) (x : A) : list A :=
    match l, i with
    | [], _ => []
    | _ :: l', O => x :: l'
    | y :: l', S i' => y :: lset l' i' x
    end.

  (** A method of sproduct number i. *)
  Definition on_sp {A} (i : nat) (f : ST (store num) A) : ST world A := fun w =>
    match nth_error (w_sps w) i with
    | Some sp => match f (w_heap w, sp) with
                 | (r, (h, sp')) => (r, mkWorld h (lset (w_sps w) i sp'))
                 end
    | None => (UB BadPointer, w)
    end.

  Definition wstep (c : wcall) (w : world) : outcome wval * world :=
    match c with
    | WDefault g => (Ok RUnit, mkWorld (w_heap w ++ [particle_default g]) (w_sps w))
    | WMass g m => (Ok RUnit, mkWorld (w_heap w ++ [particle_mass g m]) (w_sps w))
    | WMom g q m =>
        match particle_new g q m with
        | (Ok _, P) => (Ok RUnit, mkWorld (w_heap w ++ [P]) (w_sps w))
        | (Exn e, _) => (Exn e, w)
        | (UB u, _) => (UB u, w)
        end
    | WPart a o =>
        match nth_error (w_heap w) a with
        | Some P => match pstep o P with
                    | (r, P') => (omap RPart r, mkWorld (hset (w_heap w) a P') (w_sps w))
                    end
        | None => (UB BadPointer, w)
        end
    | WSDefault => (Ok RUnit, mkWorld (w_heap w) (w_sps w ++ [sproduct_default]))
    | WSMake angle pL iLU mid pR iRU =>
        match sp_construct angle pL iLU mid pR iRU (w_heap w) with
        | (Ok _, (h, sp)) => (Ok RUnit, mkWorld h (w_sps w ++ [sp]))
        | (Exn e, (h, _)) => (Exn e, mkWorld h (w_sps w))
        | (UB u, (h, _)) => (UB u, mkWorld h (w_sps w))
        end
    | WSAssign i j =>
        match nth_error (w_sps w) i, nth_error (w_sps w) j with
        | Some _, Some sp => (Ok RUnit, mkWorld (w_heap w) (lset (w_sps w) i sp))
        | _, _ => (UB BadPointer, w)
        end
    | WUpdate i => smap (fun _ => RUnit) (on_sp i sp_update) w
    | WV0 i => smap RVal (on_sp i v0) w
    | WV1 i s => smap RVal (on_sp i (v1 s)) w
    | WV2 i s t => smap RVal (on_sp i (v2 s t)) w
    end.

  (** A history of calls: what each returned or threw, and the final world. *)
  Fixpoint wrun (h : list wcall) (w : world) : list (outcome wval) * world :=
    match h with
    | [] => ([], w)
    | c :: h' => let (r, w') := wstep c w in
                 let (rs, w'') := wrun h' w' in (r :: rs, w'')
    end.
End World.
Arguments world : clear implicits.
Arguments wcall : clear implicits.
Arguments wval : clear implicits.
