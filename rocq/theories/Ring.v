(** Ring buffers: a list [l] stored from index [out] of an array of [size] slots. *)
From Verif Require Import Words WordsFacts.

Definition holds {A} (size : nat) (slots : list A) (out : nat) (l : list A) : Prop :=
  forall k, (k < length l)%nat -> nth_error slots ((out + k) mod size)%nat = nth_error l k.

Lemma modfact : forall a size, (a < 2 * size)%nat -> (0 < size)%nat ->
  (a mod size)%nat = (if (a <? size)%nat then a else a - size)%nat.
Proof.
  intros a size H H0. destruct (a <? size)%nat eqn:E.
  - apply Nat.mod_small. apply Nat.ltb_lt in E. lia.
  - apply Nat.ltb_ge in E. symmetry. apply (Nat.mod_unique a size 1); lia.
Qed.

Lemma holds_nil : forall A size (slots : list A) out, holds size slots out [].
Proof. intros A size slots out k H. cbn in H. lia. Qed.

Lemma holds_app : forall A size (slots slots' : list A) out l e i,
  (out < size)%nat -> (length l < size)%nat ->
  holds size slots out l ->
  i = ((out + length l) mod size)%nat ->
  upd slots i e = Some slots' ->
  holds size slots' out (l ++ [e]).
Proof.
  intros A size slots slots' out l e i Ho Hl Hh -> Hu k Hk.
  rewrite app_length in Hk. cbn in Hk.
  destruct (Nat.eq_dec k (length l)) as [->|Hne].
  - rewrite (upd_nth_same _ _ _ _ _ Hu).
    rewrite nth_error_app2 by lia. rewrite Nat.sub_diag. reflexivity.
  - rewrite (upd_nth_other _ _ _ _ _ _ Hu).
    + rewrite nth_error_app1 by lia. apply Hh. lia.
    + rewrite !modfact by lia.
      destruct (_ <? _)%nat eqn:E1; destruct (out + k <? size)%nat eqn:E2; lia.
Qed.

Lemma holds_tail : forall A size (slots : list A) out e l,
  (out < size)%nat -> (length l < size)%nat ->
  holds size slots out (e :: l) -> holds size slots ((out + 1) mod size) l.
Proof.
  intros A size slots out e l Ho Hl Hh k Hk.
  specialize (Hh (S k)). cbn in Hh. rewrite <- Hh by lia. f_equal.
  rewrite Nat.add_mod_idemp_l by lia. f_equal. lia.
Qed.

Lemma holds_head : forall A size (slots : list A) out e l,
  (out < size)%nat -> holds size slots out (e :: l) -> nth_error slots out = Some e.
Proof.
  intros A size slots out e l Ho Hh. specialize (Hh O). cbn in Hh.
  rewrite Nat.add_0_r, Nat.mod_small in Hh by lia. apply Hh. lia.
Qed.

Lemma holds_firstn : forall A size (slots : list A) out l n,
  holds size slots out l -> holds size slots out (firstn n l).
Proof.
  intros A size slots out l n Hh k Hk. rewrite firstn_length in Hk.
  rewrite Hh by lia. symmetry. rewrite <- (firstn_skipn n l) at 2.
  rewrite nth_error_app1; [reflexivity|]. rewrite firstn_length. lia.
Qed.
