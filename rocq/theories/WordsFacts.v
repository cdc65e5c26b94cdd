(** Facts about [Words.v]. *)
From Verif Require Import Words.

Lemma upd_length : forall A (l : list A) i x l', upd l i x = Some l' -> length l' = length l.
Proof.
  induction l as [|h t IH]; intros [|i] x l' H; cbn in H; try discriminate.
  - injection H as <-. reflexivity.
  - destruct (upd t i x) eqn:E; try discriminate. injection H as <-.
    cbn. f_equal. eapply IH. exact E.
Qed.

Lemma upd_some : forall A (l : list A) i x, (i < length l)%nat -> exists l', upd l i x = Some l'.
Proof.
  induction l as [|h t IH]; intros [|i] x H; cbn in *; try lia.
  - eauto.
  - destruct (IH i x) as [t' Ht]; [lia|]. rewrite Ht. eauto.
Qed.

Lemma upd_none : forall A (l : list A) i x, (length l <= i)%nat -> upd l i x = None.
Proof.
  induction l as [|h t IH]; intros [|i] x H; cbn in *; auto; try lia.
  rewrite IH; auto; lia.
Qed.

Lemma upd_nth_same : forall A (l : list A) i x l', upd l i x = Some l' -> nth_error l' i = Some x.
Proof.
  induction l as [|h t IH]; intros [|i] x l' H; cbn in H; try discriminate.
  - injection H as <-. reflexivity.
  - destruct (upd t i x) eqn:E; try discriminate. injection H as <-. cbn. eauto.
Qed.

Lemma upd_nth_other : forall A (l : list A) i j x l', upd l i x = Some l' -> i <> j -> nth_error l' j = nth_error l j.
Proof.
  induction l as [|h t IH]; intros [|i] j x l' H Hij; cbn in H; try discriminate.
  - injection H as <-. destruct j; [congruence|reflexivity].
  - destruct (upd t i x) eqn:E; try discriminate. injection H as <-.
    destruct j; cbn; [reflexivity|]. eapply IH; [exact E|congruence].
Qed.

Lemma set_nth_length : forall A (l : list A) i x, length (set_nth l i x) = length l.
Proof. induction l; intros [|i] x; cbn; auto. Qed.

Lemma set_nth_same : forall A (l : list A) i x, (i < length l)%nat -> nth_error (set_nth l i x) i = Some x.
Proof. induction l; intros [|i] x H; cbn in *; try lia; auto. apply IHl. lia. Qed.

Lemma set_nth_other : forall A (l : list A) i j x, i <> j -> nth_error (set_nth l i x) j = nth_error l j.
Proof. induction l; intros [|i] [|j] x H; cbn in *; auto; try congruence. Qed.

Lemma set_nth_beyond : forall A (l : list A) i x, (length l <= i)%nat -> set_nth l i x = l.
Proof. induction l; intros [|i] x H; cbn in *; auto; try lia. f_equal. apply IHl. lia. Qed.

Lemma upd_set_nth : forall A (l : list A) i x, (i < length l)%nat -> upd l i x = Some (set_nth l i x).
Proof.
  induction l as [|h t IH]; intros [|i] x H; cbn in *; try lia; auto.
  rewrite IH by lia. reflexivity.
Qed.

Lemma set_nth_id : forall A (l : list A) i x, nth_error l i = Some x -> set_nth l i x = l.
Proof. induction l; intros [|i] x H; cbn in *; try discriminate; try congruence. f_equal. auto. Qed.

Lemma set_nth_set_nth : forall A (l : list A) i x y, set_nth (set_nth l i x) i y = set_nth l i y.
Proof. induction l; intros [|i] x y; cbn; auto. f_equal; auto. Qed.

Lemma list_ext : forall A (l l' : list A), (forall i, nth_error l i = nth_error l' i) -> l = l'.
Proof.
  induction l as [|h t IH]; intros [|h' t'] H; auto.
  - specialize (H O). discriminate.
  - specialize (H O). discriminate.
  - f_equal.
    + specialize (H O). cbn in H. congruence.
    + apply IH. intro i. exact (H (S i)).
Qed.

(** a complete finite sweep of the words below [n] *)
Definition below (n : N) : list N := map N.of_nat (seq 0 (N.to_nat n)).

Lemma below_all : forall (P : N -> bool) n, forallb P (below n) = true -> forall x, x < n -> P x = true.
Proof.
  intros P n H x Hx. rewrite forallb_forall in H. apply H. unfold below.
  apply in_map_iff. exists (N.to_nat x). split; [lia|]. apply in_seq. lia.
Qed.

Lemma mod_small_nat : forall a n, (a < n)%nat -> (a mod n)%nat = a.
Proof. intros. apply Nat.mod_small. lia. Qed.

Lemma nth_error_some_lt : forall A (l : list A) i x, nth_error l i = Some x -> (i < length l)%nat.
Proof. intros. apply nth_error_Some. congruence. Qed.

Lemma nth_error_lt_some : forall A (l : list A) i, (i < length l)%nat -> exists x, nth_error l i = Some x.
Proof. intros A l i H. destruct (nth_error l i) eqn:E; eauto. apply nth_error_None in E. lia. Qed.

Lemma nth_set_nth_same : forall A (l : list A) i x d, (i < length l)%nat -> nth i (set_nth l i x) d = x.
Proof.
  intros A l. induction l as [|h t IH]; intros [|i] x d H; cbn in H |- *; try lia; auto.
  apply IH. lia.
Qed.
Lemma nth_set_nth_other : forall A (l : list A) i j x d, i <> j -> nth j (set_nth l i x) d = nth j l d.
Proof.
  intros A l. induction l as [|h t IH]; intros [|i] [|j] x d H; cbn; auto; try congruence.
Qed.
Lemma map_set_nth : forall A B (f : A -> B) l i x, map f (set_nth l i x) = set_nth (map f l) i (f x).
Proof. intros A B f l. induction l as [|h t IH]; intros [|i] x; cbn; f_equal; auto. Qed.
Lemma Forall_set_nth : forall A (P : A -> Prop) l i x, Forall P l -> P x -> Forall P (set_nth l i x).
Proof.
  intros A P l i x H Px. revert i. induction H as [|y l Py Hl IH]; intros [|i]; cbn [set_nth]; auto.
Qed.
