(** C85: the random delay before the answer to a status request. *)
From Verif Require Import Words WordsFacts RandModel Rand.

(** Every delay is shorter than the arbitration phase at the lowest rate (104 microseconds), in every history. *)
Theorem C85_range_partial : forall ops v, Forall (fun d => d < 104) (rrun ops v).
Proof.
  induction ops as [|[s|] ops IH]; intro v; cbn [rrun]; [constructor|apply IH|]. constructor; [unfold rand_delay; apply N.mod_lt; discriminate|apply IH].
Qed.
Print Assumptions C85_range_partial.

(** The delays after an initialisation are those of the serial number, whatever happened before. *)
Theorem C85_seed_partial : forall before serial after v, exists old, rrun (before ++ RInit serial :: after) v = old ++ rrun (RInit serial :: after) 0 /\ old = rrun before v.
Proof. intros. eexists. split; [apply rrun_app|reflexivity]. Qed.
Print Assumptions C85_seed_partial.

(** the delay of request number [n] (from 0) after the initialisation with a serial number *)
Definition delay_of (serial : N) (n : nat) : N := nth n (rrun (RInit serial :: repeat RStatus (S n)) 0) 0.
(** Two nodes that were initialised together and hear the same requests: if their serial numbers differ in the low 16 bits, then among any
    65536 requests in a row there is one for which their delays are different. *)
Theorem C85_differ_partial : forall s1 s2 n, s1 mod 65536 <> s2 mod 65536 -> exists k, n <= k < n + 65536 /\ delay_of s1 (N.to_nat k) <> delay_of s2 (N.to_nat k).
Proof.
  intros s1 s2 n Nq.
  assert (forall s k, delay_of s k = 8 * (2 * iter (S k) low (s mod 65536) mod 13)) as D.
  { intros s k. unfold delay_of. cbn [rrun]. rewrite rrun_nth by lia. rewrite delay_low, iter_low. replace (u32 s mod 65536) with (s mod 65536) by (unfold u32; lia). reflexivity. }
  assert (B1 : s1 mod 65536 < 65536) by lia. assert (B2 : s2 mod 65536 < 65536) by lia.
  set (x := s1 mod 65536) in *. set (y := s2 mod 65536) in *.
  assert (forall m a b, a < 65536 -> b < 65536 -> a <> b -> iter m low a <> iter m low b) as Inj.
  { intros m a b La Lb Nab E. destruct (reach a b La Lb) as (s & Ls & Es). subst b.
    assert (s <> 0)%nat as S0 by (intros ->; cbn in Nab; congruence).
    rewrite <- iter_add, Nat.add_comm, iter_add in E. symmetry in E. revert E. apply no_short; [split; [apply Nat.neq_0_lt_0, S0|exact Ls]|apply iter_low_lt, La]. }
  destruct (differ_low (iter (S (N.to_nat n)) low x) (iter (S (N.to_nat n)) low y)) as (k & Lk & Dk).
  - apply low_lt.
  - apply low_lt.
  - apply Inj; assumption.
  - exists (n + N.of_nat k). split; [apply lt_P; assumption|]. rewrite !D. fold x y. rewrite <- !iter_add in Dk.
    rewrite add_k.
    set (a := iter (k + S (N.to_nat n)) low x) in *. set (b := iter (k + S (N.to_nat n)) low y) in *. clearbody a b. intro Q. apply Dk. rewrite (half13 a), (half13 b). apply N.mul_cancel_l in Q; [|discriminate]. now rewrite Q.
Qed.
Print Assumptions C85_differ_partial.
Example C85_case : 1995998 mod 65536 <> 1996254 mod 65536 /\ map (delay_of 1995998) [0; 1; 2; 3; 4]%nat = [8; 32; 80; 0; 48] /\ map (delay_of 1996254) [0; 1; 2; 3; 4]%nat = [56; 72; 96; 56; 48].
Proof. split; [discriminate|]. vm_compute. split; reflexivity. Qed.

(** Refuted: nodes whose serial numbers agree in the low 16 bits wait equally long, for ever. *)
Theorem C85_same_refuted : forall s1 s2 n, s1 mod 65536 = s2 mod 65536 -> delay_of s1 n = delay_of s2 n.
Proof.
  intros s1 s2 n E. unfold delay_of. cbn [rrun]. rewrite !rrun_nth by lia. rewrite !delay_low, !iter_low. replace (u32 s1 mod 65536) with (u32 s2 mod 65536) by (unfold u32; lia). reflexivity.
Qed.
Print Assumptions C85_same_refuted.
(** Refuted: of the 104 delays only the 13 multiples of 8 ever occur. *)
Theorem C85_coarse_refuted : forall ops v, Forall (fun d => In d [0; 8; 16; 24; 32; 40; 48; 56; 64; 72; 80; 88; 96]) (rrun ops v).
Proof.
  induction ops as [|[s|] ops IH]; intro v; cbn [rrun]; [constructor|apply IH|]. constructor; [|apply IH]. rewrite delay_low.
  assert (2 * (rand_next v mod 65536) mod 13 < 13) as B by lia. set (r := 2 * (rand_next v mod 65536) mod 13) in *. clearbody r.
  assert (r = 0 \/ r = 1 \/ r = 2 \/ r = 3 \/ r = 4 \/ r = 5 \/ r = 6 \/ r = 7 \/ r = 8 \/ r = 9 \/ r = 10 \/ r = 11 \/ r = 12) as D by lia.
  repeat (destruct D as [->|D]; [cbn; tauto|]). subst r. cbn. tauto.
Qed.
Print Assumptions C85_coarse_refuted.
(** each of them does occur, for every serial number and again and again *)
Theorem C85_all_used_partial : forall serial n d, In d [0; 8; 16; 24; 32; 40; 48; 56; 64; 72; 80; 88; 96] -> exists k, n <= k < n + 65536 /\ delay_of serial (N.to_nat k) = d.
Proof.
  intros serial n d Hd. assert (exists r, r < 13 /\ d = 8 * r) as (r & Br & ->) by (cbn [In] in Hd; exists (d / 8); lia).
  set (x := iter (S (N.to_nat n)) low (serial mod 65536)). assert (x < 65536) as Bx by apply low_lt.
  destruct (reach x (7 * r) Bx ltac:(lia)) as (s & Ls & Es). exists (n + N.of_nat s). split; [apply lt_P; assumption|].
  unfold delay_of. cbn [rrun]. rewrite rrun_nth by lia. rewrite delay_low, iter_low. rewrite add_k.
  rewrite iter_add. replace (u32 serial mod 65536) with (serial mod 65536) by (unfold u32; lia). fold x. rewrite Es. replace (2 * (7 * r)) with (r + r * 13) by lia. rewrite N.mod_add by discriminate. now rewrite N.mod_small by exact Br.
Qed.
Print Assumptions C85_all_used_partial.
(** and the delays repeat after 65536 requests *)
Theorem C85_period_refuted : forall serial n, delay_of serial (N.to_nat (n + 65536)) = delay_of serial (N.to_nat n).
Proof.
  intros serial n. unfold delay_of. cbn [rrun]. rewrite !rrun_nth by lia. rewrite !delay_low, !iter_low.
  rewrite add_P. rewrite iter_add, full by lia. reflexivity.
Qed.
Print Assumptions C85_period_refuted.
