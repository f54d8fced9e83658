(** * Classes with outer bosons: the amplitudes agree, part 1

    The whole comparison is a computation; the kernel does it. *)
From Coq Require Import List.
From Verif Require Import BosonCode BosonTable.
Lemma agree1 : forallb amps_agree boson_entries1 = true.
Proof. vm_cast_no_check (eq_refl true). Qed.
