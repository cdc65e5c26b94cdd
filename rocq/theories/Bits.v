(** Bit operations as arithmetic. *)
From Verif Require Import Words WordsFacts.

Lemma shiftr_div : forall a n, N.shiftr a n = a / 2 ^ n.
Proof. intros. apply N.shiftr_div_pow2. Qed.
Lemma shiftl_mul : forall a n, N.shiftl a n = a * 2 ^ n.
Proof. intros. apply N.shiftl_mul_pow2. Qed.

Lemma land_high_zero : forall a b n, b < 2 ^ n -> N.land (a * 2 ^ n) b = 0.
Proof.
  intros a b n Hb. apply N.bits_inj. intro i. rewrite N.land_spec, N.bits_0.
  destruct (N.ltb_spec i n) as [H|H].
  - rewrite N.mul_pow2_bits_low by exact H. reflexivity.
  - replace (N.testbit b i) with false; [apply andb_false_r|].
    symmetry. destruct (N.eq_dec b 0) as [->|Hz]; [apply N.bits_0|].
    apply N.bits_above_log2. apply N.log2_lt_pow2 in Hb; lia.
Qed.

(** or-ing disjoint parts is addition *)
Lemma lor_add : forall a b n, b < 2 ^ n -> N.lor (a * 2 ^ n) b = a * 2 ^ n + b.
Proof.
  intros a b n Hb. pose proof (land_high_zero a b n Hb) as H.
  rewrite <- N.lxor_lor by exact H. symmetry. apply N.add_nocarry_lxor. exact H.
Qed.

Lemma land_shifted : forall a m n, N.land a (m * 2 ^ n) = N.land (a / 2 ^ n) m * 2 ^ n.
Proof.
  intros a m n. rewrite <- !N.shiftl_mul_pow2, <- N.shiftr_div_pow2.
  apply N.bits_inj. intro i. rewrite N.land_spec.
  destruct (N.ltb_spec i n) as [H|H].
  - rewrite !N.shiftl_spec_low by exact H. apply andb_false_r.
  - rewrite !N.shiftl_spec_high' by exact H. rewrite N.land_spec, N.shiftr_spec'.
    replace (i - n + n) with i by lia. reflexivity.
Qed.

Lemma land_low : forall a n, N.land a (2 ^ n - 1) = a mod 2 ^ n.
Proof. intros. rewrite <- N.land_ones, N.ones_equiv, N.sub_1_r. reflexivity. Qed.

Lemma land_255 : forall a, N.land a 255 = a mod 256.
Proof. intro a. exact (land_low a 8). Qed.
Lemma land_15 : forall a, N.land a 15 = a mod 16.
Proof. intro a. exact (land_low a 4). Qed.
Lemma land_3 : forall a, N.land a 3 = a mod 4.
Proof. intro a. exact (land_low a 2). Qed.
