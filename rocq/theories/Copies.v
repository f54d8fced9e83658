(** * Copies of process objects

    No class declares a copy constructor, so the implicit one copies member by member: a copy
    has its own particles, but its spinor products hold the same pointers as those of the
    original (include/sproduct.h 41-43: pL, pR, p[]; sproduct has no copy constructor either).

    Memory: the particles of the original have the addresses 0 to 3, those of the copy 4 to
    7.  The methods of the copy are those of the class with [this] at the copy, that is with
    4 added to the addresses of its members p1 ... p4. *)
From Coq Require Import QArith.
From Verif Require Import Base Scalar Linear Integers Particle Sproduct Propagator Process Lang.
Close Scope Q_scope.
Open Scope st_scope.

Fixpoint shift_e (k : nat) {t} (e : exp t) : exp t :=
  match e in exp t return exp t with
  | EUn o e => EUn o (shift_e k e)
  | EBin o e f => EBin o (shift_e k e) (shift_e k f)
  | EAnd e f => EAnd (shift_e k e) (shift_e k f)
  | EOr e f => EOr (shift_e k e) (shift_e k f)
  | ESpinor0 p d => ESpinor0 (k + p) d
  | ESpinor1 p d e => ESpinor1 (k + p) d (shift_e k e)
  | EMat p u => EMat (k + p) u
  | e => e
  end.
Fixpoint shift_s (k : nat) (s : stmt) : stmt :=
  match s with
  | SSeq s1 s2 => SSeq (shift_s k s1) (shift_s k s2)
  | SLoc r x e => SLoc r x (shift_e k e)
  | SMemT x e => SMemT x (shift_e k e)
  | SMemC x e => SMemC x (shift_e k e)
  | SArrT x i e => SArrT x i (shift_e k e)
  | SArrC x i e => SArrC x i (shift_e k e)
  | SIf b s1 s2 => SIf (shift_e k b) (shift_s k s1) (shift_s k s2)
  | SFor x lo cond next s => SFor x (shift_e k lo) (shift_e k cond) (shift_e k next) (shift_s k s)
  | SReturnT e => SReturnT (shift_e k e)
  | SReturnC e => SReturnC (shift_e k e)
  | SParticle p m => SParticle (k + p) (shift_e k m)
  | SSetMass p m => SSetMass (k + p) (shift_e k m)
  | SSetMomentum p x => SSetMomentum (k + p) x
  | SPropNew r m w => SPropNew r (shift_e k m) (shift_e k w)
  | SPropMass r m => SPropMass r (shift_e k m)
  | SSprod s a pL mid pR => SSprod s a (k + pL) (map (Nat.add k) mid) (k + pR)
  | s => s
  end.
(** the class as seen from an object whose particles start at address k *)
Definition shift (k : nat) (c : cls) : cls :=
  mkCls (c_name c) (c_members c) (c_params c) (c_inits c) (c_body c)
    (map (fun f => mkMeth (m_name f) (m_params f) (shift_s k (m_body f))) (c_methods c)).

Section Copy.
  Context {num : Num}.
  (** the copy, with all of memory as its heap *)
  Definition copied (o : obj num) : obj num := u_heap (o_heap o ++ o_heap o) o.
  (** the original after the copy did things: its particles are the first four *)
  Definition original (o copy : obj num) : obj num := u_heap (firstn 4 (o_heap copy)) o.
End Copy.
