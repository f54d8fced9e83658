(** * The loops of Memory.v compute the value functions of Linear.v *)
From Verif Require Import Base Scalar Linear Memory.
Open Scope st_scope.

Section Proofs.
  Context {num : Num}.
  Notation memory := (memory num).
  Notation cmatrix := (cmatrix num).

  Lemma upd_same (mem : memory) a m x : nth_error mem a = Some x -> nth_error (upd mem a m) a = Some m.
  Proof. revert a; induction mem as [|y r IH]; intros [|a]; simpl; intros H; try discriminate; auto. Qed.
  Lemma upd_other (mem : memory) a b m : a <> b -> nth_error (upd mem a m) b = nth_error mem b.
  Proof.
    revert a b; induction mem as [|y r IH]; intros [|a] [|b]; simpl; intros H; auto; try lia.
  Qed.
  Lemma upd_upd (mem : memory) a m m' : upd (upd mem a m) a m' = upd mem a m'.
  Proof. revert a; induction mem as [|y r IH]; intros [|a]; simpl; auto; now rewrite IH. Qed.
  Lemma upd_length (mem : memory) a m : length (upd mem a m) = length mem.
  Proof. revert a; induction mem as [|y r IH]; intros [|a]; simpl; auto. Qed.
  Lemma upd_self (mem : memory) a m : nth_error mem a = Some m -> upd mem a m = mem.
  Proof.
    revert a; induction mem as [|y r IH]; intros [|a]; simpl; intros H; try discriminate; auto.
    - injection H as ->. reflexivity.
    - now rewrite IH.
  Qed.
  Lemma load_ok (mem : memory) a m i j : nth_error mem a = Some m -> load a i j mem = (Ok (elem m i j), mem).
  Proof. unfold load. intros ->. reflexivity. Qed.
  Lemma store_ok (mem : memory) a m i j x :
    nth_error mem a = Some m -> store a i j x mem = (Ok tt, upd mem a (set_elem m i j x)).
  Proof. unfold store. intros ->. reflexivity. Qed.

  (** One pass of an elementwise loop [mat[i][j] = f(mat[i][j], m.mat[i][j])]. *)
  Definition zip (f : CX num -> CX num -> CX num) (m n : cmatrix) : cmatrix :=
    CM (f (m00 m) (m00 n)) (f (m01 m) (m01 n)) (f (m10 m) (m10 n)) (f (m11 m) (m11 n)).
  Definition zip_body (f : CX num -> CX num -> CX num) (a b : nat) (i j : bool) : ST memory unit :=
    do x <- load a i j; do y <- load b i j; store a i j (f x y).

  Lemma zip_step f (mem : memory) a b m n i j :
    nth_error mem a = Some m -> nth_error mem b = Some n ->
    zip_body f a b i j mem = (Ok tt, upd mem a (set_elem m i j (f (elem m i j) (elem n i j)))).
  Proof.
    intros Ha Hb. unfold zip_body, sbind.
    rewrite (load_ok _ _ _ _ _ Ha), (load_ok _ _ _ _ _ Hb). apply store_ok, Ha.
  Qed.
  Lemma zip_loop f (mem : memory) a b m n :
    nth_error mem a = Some m -> nth_error mem b = Some n ->
    for_ij (zip_body f a b) mem = (Ok tt, upd mem a (zip f m n)).
  Proof.
    intros Ha Hb. unfold for_ij.
    assert (K : forall m1 x, nth_error (upd mem a m1) a = Some x -> x = m1).
    { intros m1 x H. rewrite (upd_same _ _ _ _ Ha) in H. now injection H. }
    destruct (Nat.eq_dec a b) as [<-|D].
    - rewrite Ha in Hb. injection Hb as <-.
      unfold sbind at 1. rewrite (zip_step f _ _ _ _ _ _ _ Ha Ha).
      unfold sbind at 1. rewrite (zip_step f _ _ _ _ _ _ _ (upd_same _ _ _ _ Ha) (upd_same _ _ _ _ Ha)), upd_upd.
      unfold sbind at 1. rewrite (zip_step f _ _ _ _ _ _ _ (upd_same _ _ _ _ Ha) (upd_same _ _ _ _ Ha)), upd_upd.
      rewrite (zip_step f _ _ _ _ _ _ _ (upd_same _ _ _ _ Ha) (upd_same _ _ _ _ Ha)), upd_upd.
      reflexivity.
    - assert (Hb' : forall x, nth_error (upd mem a x) b = Some n) by (intros; rewrite upd_other; auto).
      unfold sbind at 1. rewrite (zip_step f _ _ _ _ _ _ _ Ha Hb).
      unfold sbind at 1. rewrite (zip_step f _ _ _ _ _ _ _ (upd_same _ _ _ _ Ha) (Hb' _)), upd_upd.
      unfold sbind at 1. rewrite (zip_step f _ _ _ _ _ _ _ (upd_same _ _ _ _ Ha) (Hb' _)), upd_upd.
      rewrite (zip_step f _ _ _ _ _ _ _ (upd_same _ _ _ _ Ha) (Hb' _)), upd_upd.
      reflexivity.
  Qed.
  Lemma add_assign_value (mem : memory) a b m n :
    nth_error mem a = Some m -> nth_error mem b = Some n ->
    add_assign a b mem = (Ok tt, upd mem a (cm_add m n)).
  Proof. exact (zip_loop cadd mem a b m n). Qed.
  Lemma sub_assign_value (mem : memory) a b m n :
    nth_error mem a = Some m -> nth_error mem b = Some n ->
    sub_assign a b mem = (Ok tt, upd mem a (cm_sub m n)).
  Proof. exact (zip_loop csub mem a b m n). Qed.

  Lemma store_loop (mem : memory) a m r :
    nth_error mem a = Some m -> for_ij (fun i j => store a i j (elem r i j)) mem = (Ok tt, upd mem a r).
  Proof.
    intros Ha. unfold for_ij.
    unfold sbind at 1. rewrite (store_ok _ _ _ _ _ _ Ha).
    unfold sbind at 1. rewrite (store_ok _ _ _ _ _ _ (upd_same _ _ _ _ Ha)), upd_upd.
    unfold sbind at 1. rewrite (store_ok _ _ _ _ _ _ (upd_same _ _ _ _ Ha)), upd_upd.
    rewrite (store_ok _ _ _ _ _ _ (upd_same _ _ _ _ Ha)), upd_upd.
    destruct r; reflexivity.
  Qed.
  Lemma row_col_value (mem : memory) a b m n i j :
    nth_error mem a = Some m -> nth_error mem b = Some n ->
    row_col a b i j mem = (Ok (elem m i false * elem n false j + elem m i true * elem n true j)%cx, mem).
  Proof. intros Ha Hb. unfold row_col, sbind, load. rewrite Ha, Hb. cbn. rewrite Ha, Hb. reflexivity. Qed.
  Lemma mul_assign_value (mem : memory) a b m n :
    nth_error mem a = Some m -> nth_error mem b = Some n ->
    mul_assign a b mem = (Ok tt, upd mem a (cm_mul m n)).
  Proof.
    intros Ha Hb. unfold mul_assign, sbind. rewrite !(row_col_value _ _ _ _ _ _ _ Ha Hb).
    exact (store_loop mem a m _ Ha).
  Qed.
  Definition each (f : CX num -> CX num) (m : cmatrix) : cmatrix :=
    CM (f (m00 m)) (f (m01 m)) (f (m10 m)) (f (m11 m)).
  Lemma each_assign_value f (mem : memory) a m :
    nth_error mem a = Some m -> each_assign f a mem = (Ok tt, upd mem a (each f m)).
  Proof.
    intros Ha. unfold each_assign, for_ij.
    assert (K : forall mem i j m, nth_error mem a = Some m ->
      (do x <- load a i j; store a i j (f x)) mem = (Ok tt, upd mem a (set_elem m i j (f (elem m i j))))).
    { intros M i j m0 H. unfold sbind. rewrite (load_ok _ _ _ _ _ H). apply store_ok, H. }
    unfold sbind at 1. rewrite (K _ _ _ _ Ha).
    unfold sbind at 1. rewrite (K _ _ _ _ (upd_same _ _ _ _ Ha)), upd_upd.
    unfold sbind at 1. rewrite (K _ _ _ _ (upd_same _ _ _ _ Ha)), upd_upd.
    rewrite (K _ _ _ _ (upd_same _ _ _ _ Ha)), upd_upd. reflexivity.
  Qed.

  Lemma nth_len (mem : memory) m : nth_error (mem ++ [m]) (length mem) = Some m.
  Proof. rewrite nth_error_app2 by lia. now rewrite Nat.sub_diag. Qed.
  Lemma upd_len (mem : memory) m r : upd (mem ++ [m]) (length mem) r = mem ++ [r].
  Proof. induction mem as [|y t IH]; simpl; [reflexivity|]. now rewrite IH. Qed.
  Lemma nth_app1 (mem : memory) m b n : nth_error mem b = Some n -> nth_error (mem ++ [m]) b = Some n.
  Proof. intros H. rewrite nth_error_app1; [exact H|]. apply nth_error_Some. congruence. Qed.
  Lemma on_copy_value op (mem : memory) a m r :
    nth_error mem a = Some m ->
    op (length mem) (mem ++ [m]) = (Ok tt, upd (mem ++ [m]) (length mem) r) ->
    on_copy op a mem = (Ok r, mem).
  Proof.
    intros Ha H. unfold on_copy. rewrite Ha, H, upd_len, nth_len, firstn_app, Nat.sub_diag, firstn_all.
    simpl. now rewrite app_nil_r.
  Qed.
End Proofs.
