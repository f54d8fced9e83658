(** * Classes with outer bosons: the amplitudes agree, part 4

    The whole comparison is a computation; the kernel does it. *)
From Coq Require Import List.
From Verif Require Import BosonCode BosonTable.
Lemma agree4 : forallb amps_agree boson_entries4 = true.
Proof. vm_cast_no_check (eq_refl true). Qed.
