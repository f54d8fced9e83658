(** * class process (include/process.h, source/process.cpp)

    The helpers shared by all processes: numbers of spin loops, normalisation, spin
    assignments.  The class has no data members. *)
From Coq Require Import QArith.
From Verif Require Import Base Scalar Integers.
Close Scope Q_scope.

(** get_num_spin_loops(dsList,length): source/process.cpp 73-78 *)
Definition get_num_spin_loops (dsList : list Z) (length : nat) : outcome Z :=
  ofor 0 length (fun i nLoops =>
    let! ds := arr_get dsList i in
    if (ds =? 0)%Z then int_mul nLoops 2 else Ok nLoops) 1%Z.

(** The overloads for one to six particles, source/process.cpp 49-72: build the array and
    call the general function.  [args] are the arguments. *)
Definition num_spin_loops_of (args : list Z) : outcome Z := get_num_spin_loops args (length args).

Section Norm.
  Context {num : Num}.
  (** get_spin_normalization(dsList,length): source/process.cpp 104-110 *)
  Definition get_spin_normalization (dsList : list Z) (length : nat) : outcome (T num) :=
    ofor 0 length (fun i normFactor =>
      let! ds := arr_get dsList i in
      if (ds =? 0)%Z then Ok (normFactor / tD (dsqrt (dQ (2 # 1))))%ld else Ok normFactor) (tZ 1).
  (** the overloads for one to six particles, source/process.cpp 80-103 *)
  Definition spin_normalization_of (args : list Z) : outcome (T num) :=
    get_spin_normalization args (length args).
End Norm.

(** ** get_spinor_spins: source/process.cpp 148-183

    The particles' helicities are read and the spins written through pointers.  An
    address names an int variable of the caller; [None] is a variable that has not been
    initialised. *)
Definition iaddr : Type := nat.
Definition imem : Type := iaddr -> option Z.
Definition iload (M : imem) (a : iaddr) : outcome Z :=
  match M a with Some x => Ok x | None => UB ReadIndeterminate end.
Definition istore (M : imem) (a : iaddr) (x : Z) : imem :=
  fun b => if Nat.eqb a b then Some x else M b.

(** first loop, source/process.cpp 153-158: (loop_counters, spin0_count) *)
Definition count_step (M : imem) (dsList : list iaddr) (iterator : Z) (i : nat)
    (st : list Z * nat) : outcome (list Z * nat) :=
  let (counters, n0) := st in
  let! pa := arr_get dsList i in
  let! ds := iload M pa in
  if (ds =? 0)%Z then
    let! sh := int_shr iterator (Z.of_nat n0) in
    let! counters' := arr_set counters n0 (Z.land sh 1) in
    Ok (counters', S n0)
  else Ok (counters, n0).

(** second loop, source/process.cpp 162-182: (memory, spin0_count) *)
Definition assign_step (counters : list Z) (dsList dsLista dsListb : list iaddr) (i : nat)
    (st : imem * nat) : outcome (imem * nat) :=
  let (M, n0) := st in
  let! pd := arr_get dsList i in
  let! ds := iload M pd in
  if (ds =? 0)%Z then
    let! c := arr_get counters n0 in
    let! pa := arr_get dsLista i in
    let! pb := arr_get dsListb i in
    if (c =? 0)%Z then Ok (istore (istore M pa 1%Z) pb (-1)%Z, S n0)
    else Ok (istore (istore M pa (-1)%Z) pb 1%Z, S n0)
  else
    let! ds' := iload M pd in                       (* line 173: dsList[i] is read again *)
    if (ds' <? 0)%Z then
      let! pa := arr_get dsLista i in
      let! pb := arr_get dsListb i in
      Ok (istore (istore M pa (-1)%Z) pb (-1)%Z, n0)
    else
      let! ds'' := iload M pd in                    (* line 177: and again *)
      if (ds'' >? 0)%Z then
        let! pa := arr_get dsLista i in
        let! pb := arr_get dsListb i in
        Ok (istore (istore M pa 1%Z) pb 1%Z, n0)
      else Ok (M, n0).

Definition get_spinor_spins (dsList dsLista dsListb : list iaddr) (length : nat) (iterator : Z)
    (M : imem) : outcome imem :=
  let! st := ofor 0 length (count_step M dsList iterator) (repeat 0%Z length, 0%nat) in
  let! st' := ofor 0 length (assign_step (fst st) dsList dsLista dsListb) (M, 0%nat) in
  Ok (fst st').

(** The overloads for one to six particles, source/process.cpp 112-147: collect the
    addresses of the arguments and call the general function. *)
Definition spinor_spins_of (args : list (iaddr * iaddr * iaddr)) (iterator : Z) (M : imem) : outcome imem :=
  get_spinor_spins (map (fun x => fst (fst x)) args) (map (fun x => snd (fst x)) args)
    (map snd args) (length args) iterator M.
