(** The sequence of the delays (C85). *)
From Verif Require Import Words WordsFacts RandModel.

Fixpoint iter (n : nat) (f : N -> N) (x : N) : N := match n with O => x | S n' => f (iter n' f x) end.
Lemma iter_add f n m x : iter (n + m) f x = iter n f (iter m f x).
Proof. induction n as [|n IH]; cbn [Nat.add iter]; [reflexivity|]. now rewrite IH. Qed.
Lemma iter_shift f n x : iter (S n) f x = iter n f (f x).
Proof. replace (S n) with (n + 1)%nat by lia. rewrite iter_add. reflexivity. Qed.
Lemma iter_fix f d x k : iter d f x = x -> iter (d * k) f x = x.
Proof. intro H. induction k as [|k IH]; [rewrite Nat.mul_0_r; reflexivity|]. replace (d * S k)%nat with (d * k + d)%nat by lia. rewrite iter_add, H. exact IH. Qed.

(** the low half *)
Definition low (w : N) : N := (w * 1103515245 + 12345) mod 65536.
Lemma next_low v : rand_next v mod 65536 = low (v mod 65536).
Proof. unfold rand_next, low, u32. lia. Qed.
Lemma low_lt w : low w < 65536.
Proof. unfold low. lia. Qed.
Lemma iter_low n v : iter n rand_next v mod 65536 = iter n low (v mod 65536).
Proof. induction n as [|n IH]; [reflexivity|]. cbn [iter]. rewrite next_low, IH. reflexivity. Qed.
Lemma iter_low_lt n w : w < 65536 -> iter n low w < 65536.
Proof. destruct n; [auto|]. intros _. apply low_lt. Qed.
Lemma delay_low v : rand_delay v = 8 * (2 * (v mod 65536) mod 13).
Proof. unfold rand_delay, u32. lia. Qed.

Lemma iter_double f n x : iter (n + n) f x = iter n (fun y => y) (iter n f (iter n f x)).
Proof. rewrite iter_add. generalize (iter n f (iter n f x)). induction n; intro y; cbn [iter]; auto. Qed.
(** powers of the affine map *)
Fixpoint pw (k : nat) : N * N :=
  match k with O => (1103515245 mod 65536, 12345) | S k' => let '(a, c) := pw k' in (a * a mod 65536, (a * c + c) mod 65536) end.
Lemma pw_ok k : forall x, x < 65536 -> iter (2 ^ k) low x = (fst (pw k) * x + snd (pw k)) mod 65536.
Proof.
  induction k as [|k IH]; intros x L.
  - cbn [Nat.pow iter pw fst snd]. unfold low. rewrite <- (N.add_mod_idemp_l _ 12345), <- (N.add_mod_idemp_l (_ * x) 12345) by discriminate. f_equal. f_equal.
    rewrite N.mul_mod_idemp_l by discriminate. f_equal. lia.
  - replace (2 ^ S k)%nat with (2 ^ k + 2 ^ k)%nat by (cbn [Nat.pow]; lia). rewrite iter_add, (IH _ (iter_low_lt _ _ L)), (IH _ L). cbn [pw]. destruct (pw k) as [a c]. cbn [fst snd].
    rewrite <- N.add_mod_idemp_l, N.mul_mod_idemp_r by discriminate. rewrite N.add_mod_idemp_l by discriminate.
    rewrite N.add_mod_idemp_r by discriminate. rewrite <- (N.add_mod_idemp_l (a * a mod 65536 * x)), N.mul_mod_idemp_l, N.add_mod_idemp_l by discriminate. f_equal. lia.
Qed.
Definition H : nat := 2 ^ 15.
Definition P : nat := 2 ^ 16.
Lemma half x : x < 65536 -> iter H low x = (x + 32768) mod 65536.
Proof. intro L. unfold H. rewrite (pw_ok 15 x L). assert (pw 15 = (1, 32768)) as -> by (vm_compute; reflexivity). cbn [fst snd]. f_equal. lia. Qed.
Lemma full x : x < 65536 -> iter P low x = x.
Proof. intro L. unfold P. rewrite (pw_ok 16 x L). assert (pw 16 = (1, 0)) as -> by (vm_compute; reflexivity). cbn [fst snd]. rewrite N.mod_small; lia. Qed.
Lemma H_N : N.of_nat H = 32768.
Proof. unfold H. rewrite Nat2N.inj_pow. reflexivity. Qed.
Lemma P_N : N.of_nat P = 65536.
Proof. unfold P. rewrite Nat2N.inj_pow. reflexivity. Qed.
Global Opaque H P.
Lemma lt_P k n : (k < P)%nat -> n <= n + N.of_nat k < n + 65536.
Proof. intro L. pose proof P_N. lia. Qed.
Lemma add_P n : S (N.to_nat (n + 65536)) = (S (N.to_nat n) + P)%nat.
Proof. pose proof P_N. lia. Qed.
Lemma add_k n k : S (N.to_nat (n + N.of_nat k)) = (k + S (N.to_nat n))%nat.
Proof. lia. Qed.
Lemma half13 a : a mod 13 = 7 * (2 * a mod 13) mod 13.
Proof. rewrite N.mul_mod_idemp_r by discriminate. replace (7 * (2 * a)) with (a + a * 13) by lia. now rewrite N.mod_add by discriminate. Qed.
Lemma full_mul k x : x < 65536 -> iter (P * k) low x = x.
Proof. intro L. apply iter_fix, full, L. Qed.

(** a multiple of every distance is half the period *)
Lemma to_half j : forall d, 0 < d < 2 ^ N.succ j -> exists k q, d * k = 2 ^ j + 2 ^ N.succ j * q.
Proof.
  induction j as [|j IH] using N.peano_ind; intros d B.
  - change (2 ^ N.succ 0) with 2 in *. assert (d = 1) as -> by lia. exists 1, 0. reflexivity.
  - destruct (N.even d) eqn:Ev.
    + apply N.even_spec in Ev. destruct Ev as [e ->]. rewrite (N.pow_succ_r' 2 (N.succ j)) in *. destruct (IH e ltac:(lia)) as (k & q & Q). exists k, q. rewrite (N.pow_succ_r' 2 j) at 1. lia.
    + assert (N.odd d = true) as Od by (rewrite <- N.negb_even, Ev; reflexivity). apply N.odd_spec in Od. destruct Od as [e ->]. exists (2 ^ N.succ j), e. rewrite (N.pow_succ_r' 2 (N.succ j)). lia.
Qed.
Lemma to_half_nat d : (0 < d < P)%nat -> exists k q, (d * k = H + P * q)%nat.
Proof.
  intros [B1 B2]. destruct (to_half 15 (N.of_nat d)) as (k & q & Q).
  - change (2 ^ N.succ 15) with 65536. rewrite <- P_N. lia.
  - exists (N.to_nat k), (N.to_nat q). apply Nat2N.inj. rewrite Nat2N.inj_mul, Nat2N.inj_add, Nat2N.inj_mul, !N2Nat.id, H_N, P_N. exact Q.
Qed.
Lemma no_short d x : (0 < d < P)%nat -> x < 65536 -> iter d low x <> x.
Proof.
  intros B L E. destruct (to_half_nat d B) as (k & q & Q). pose proof (iter_fix low d x k E) as X. rewrite Q, iter_add, full_mul, half in X by exact L. lia.
Qed.
Lemma iter_inj n m x : x < 65536 -> (n < P)%nat -> (m < P)%nat -> iter n low x = iter m low x -> n = m.
Proof.
  intro L. assert (forall n m, (n < m)%nat -> (m < P)%nat -> iter n low x <> iter m low x) as A.
  { clear n m. intros n m Lt Lm E. apply (no_short (m - n) x); [lia|exact L|].
    assert (iter (P - n + m) low x = x) as X by (rewrite iter_add, <- E, <- iter_add; replace (P - n + n)%nat with P by lia; apply full, L).
    replace (P - n + m)%nat with (m - n + P)%nat in X by lia. rewrite iter_add, full in X by exact L. exact X. }
  intros Ln Lm E. destruct (Nat.lt_trichotomy n m) as [T|[T|T]]; [destruct (A _ _ T Lm E)|exact T|destruct (A _ _ T Ln (eq_sym E))].
Qed.
Lemma map_NoDup_in (f : nat -> N) l : NoDup l -> (forall a b, In a l -> In b l -> f a = f b -> a = b) -> NoDup (map f l).
Proof.
  induction 1 as [|a l Ni Nd IH]; intro I; [constructor|]. cbn [map]. constructor; [|apply IH; intros; apply I; cbn; auto].
  intro Hin. apply in_map_iff in Hin. destruct Hin as (b & E & Hb). apply Ni. rewrite (I a b); [exact Hb|cbn; auto|cbn; auto|symmetry; exact E].
Qed.
Lemma reach x y : x < 65536 -> y < 65536 -> exists s, (s < P)%nat /\ iter s low x = y.
Proof.
  intros Lx Ly. set (L := map (fun n => iter n low x) (seq 0 P)).
  assert (In y L) as Hin.
  { assert (incl (map N.of_nat (seq 0 P)) L) as I.
    { apply NoDup_length_incl.
      - apply map_NoDup_in; [apply seq_NoDup|]. intros a b Ha Hb E. apply in_seq in Ha, Hb. apply (iter_inj a b x); lia || assumption.
      - unfold L. rewrite !map_length. lia.
      - intros z Hz. apply in_map_iff in Hz. destruct Hz as (n & <- & _). pose proof (iter_low_lt n x Lx). apply in_map_iff. exists (N.to_nat (iter n low x)). split; [apply N2Nat.id|]. apply in_seq. pose proof P_N. lia. }
    apply I. apply in_map_iff. exists (N.to_nat y). split; [apply N2Nat.id|]. apply in_seq. pose proof P_N. lia. }
  apply in_map_iff in Hin. destruct Hin as (s & E & Hs). apply in_seq in Hs. exists s. split; [lia|exact E].
Qed.

(** two different sequences are not always congruent modulo 13 *)
Lemma differ_low x y : x < 65536 -> y < 65536 -> x <> y -> exists n, (n < P)%nat /\ iter n low x mod 13 <> iter n low y mod 13.
Proof.
  intros Lx Ly Nq.
  destruct (existsb (fun n => negb (iter n low x mod 13 =? iter n low y mod 13)) (seq 0 P)) eqn:Ex.
  { apply existsb_exists in Ex. destruct Ex as (n & Hn & E). apply in_seq in Hn. exists n. split; [lia|]. apply negb_true_iff, N.eqb_neq in E. exact E. }
  exfalso.
  assert (forall n, iter n low x mod 13 = iter n low y mod 13) as A.
  { intro n. rewrite (Nat.div_mod n P) by (pose proof P_N; lia). rewrite Nat.add_comm, !iter_add, !full_mul by assumption.
    assert (n mod P < P)%nat as B by (apply Nat.mod_upper_bound; pose proof P_N; lia).
    destruct (iter (n mod P) low x mod 13 =? iter (n mod P) low y mod 13) eqn:E; [apply N.eqb_eq, E|].
    assert (existsb (fun n => negb (iter n low x mod 13 =? iter n low y mod 13)) (seq 0 P) = true) as X; [|congruence].
    apply existsb_exists. exists (n mod P)%nat. split; [apply in_seq; lia|]. rewrite E. reflexivity. }
  assert (forall n, (iter n low x <? 32768) = (iter n low y <? 32768)) as T.
  { intro n. pose proof (A n) as A0. pose proof (A (H + n)%nat) as A1. rewrite !iter_add in A1. pose proof (iter_low_lt n x Lx) as B1. pose proof (iter_low_lt n y Ly) as B2.
    rewrite !half in A1 by assumption. set (a := iter n low x) in *. set (b := iter n low y) in *. clearbody a b.
    destruct (N.ltb_spec a 32768), (N.ltb_spec b 32768); try reflexivity; exfalso; lia. }
  destruct (reach x y Lx Ly) as (s & Ls & Es).
  assert (s <> 0)%nat as S0 by (intros ->; cbn in Es; congruence).
  destruct (to_half_nat s ltac:(lia)) as (k & q & Q).
  assert (forall k n, (iter (s * k + n) low x <? 32768) = (iter n low x <? 32768)) as R.
  { clear k Q. induction k as [|k IH]; intro n; [rewrite Nat.mul_0_r; reflexivity|]. replace (s * S k + n)%nat with ((s * k + n) + s)%nat by lia. rewrite iter_add, Es, <- T. apply IH. }
  specialize (R k 0%nat). rewrite Nat.add_0_r, Q, iter_add, full_mul, half in R by assumption. cbn [iter] in R.
  destruct (N.ltb_spec x 32768), (N.ltb_spec ((x + 32768) mod 65536) 32768); try discriminate; lia.
Qed.

(** the delay of request number [n] (from 0) *)
Lemma rrun_nth n v : forall m, (n < m)%nat -> nth n (rrun (repeat RStatus m) v) 0 = rand_delay (iter (S n) rand_next v).
Proof.
  revert v. induction n as [|n IH]; intros v [|m] L; try lia; cbn [repeat rrun nth]; [reflexivity|]. rewrite IH by lia. rewrite <- iter_shift. reflexivity.
Qed.
Lemma rrun_app a b v : rrun (a ++ b) v = rrun a v ++ rrun b (fold_left (fun v o => match o with RInit s => u32 s | RStatus => rand_next v end) a v).
Proof. revert v. induction a as [|[s|] a IH]; intro v; cbn [app rrun fold_left]; [reflexivity|apply IH|]. f_equal. apply IH. Qed.
