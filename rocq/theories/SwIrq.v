(** Proofs about switching modules with interrupts. *)
From Verif Require Import Words WordsFacts NodeModel SwIrqModel SwIrqSpec.

Lemma flag_bit t i p : N.testbit (flag t i) p = (p =? N.of_nat (4 * t + i)).
Proof. unfold flag. rewrite N.shiftl_1_l. destruct (N.eqb_spec p (N.of_nat (4 * t + i))) as [->|H]; [apply N.pow2_bits_true|apply N.pow2_bits_false; congruence]. Qed.
Lemma off_bit r t i p : N.testbit (N.ldiff r (flag t i)) p = if p =? N.of_nat (4 * t + i) then false else N.testbit r p.
Proof. rewrite N.ldiff_spec, flag_bit. destruct (p =? N.of_nat (4 * t + i)); cbn [negb]; [apply andb_false_r|apply andb_true_r]. Qed.
Lemma on_bit r t i p : N.testbit (N.lor r (flag t i)) p = if p =? N.of_nat (4 * t + i) then true else N.testbit r p.
Proof. rewrite N.lor_spec, flag_bit. destruct (p =? N.of_nat (4 * t + i)); [apply orb_true_r|apply orb_false_r]. Qed.
Definition body (i : nat) : list wacc := [WLoad i; WStore i; WConv i].
(** the effect of an object *)
Definition obj_effect (t i : nat) (x : N) (s s' : sw) : Prop :=
  w_silent s' = w_silent s /\ (forall p, N.testbit (w_reg s') p = if p =? N.of_nat (4 * t + i) then x =? AWAKE else N.testbit (w_reg s) p) /\
  (forall m j, w_conv s' m j = if (m =? t)%nat && (j =? i)%nat then x =? AWAKE else w_conv s m j).
Lemma stored t st i l s : state_ok (wl_to l) -> wl_tmp l = w_reg s -> snd (waccess t st (WStore i) l s) = put_reg s (w_reg (snd (waccess t st (WStore i) l s))) /\
  forall p, N.testbit (w_reg (snd (waccess t st (WStore i) l s))) p = if p =? N.of_nat (4 * t + i) then wl_to l =? AWAKE else N.testbit (w_reg s) p.
Proof.
  intros [E|E] T; unfold waccess; rewrite E; cbn [N.eqb SILENT AWAKE Pos.eqb snd put_reg w_reg w_silent w_conv]; (split; [reflexivity|]); intro p; rewrite T; [apply off_bit|apply on_bit].
Qed.
Lemma conved t st i l s : state_ok (wl_to l) -> w_silent (snd (waccess t st (WConv i) l s)) = w_silent s /\ w_reg (snd (waccess t st (WConv i) l s)) = w_reg s /\
  forall m j, w_conv (snd (waccess t st (WConv i) l s)) m j = if (m =? t)%nat && (j =? i)%nat then wl_to l =? AWAKE else w_conv s m j.
Proof. intros [E|E]; unfold waccess; rewrite E; cbn [N.eqb SILENT AWAKE Pos.eqb snd put_conv w_reg w_silent w_conv]; repeat split; reflexivity. Qed.
Lemma loop_effect t st : forall n i l s, state_ok (wl_to l) -> exists s', wexec t st (flat_map body (seq i n)) l s = s' /\
  w_silent s' = w_silent s /\ (forall m j, (j < 4)%nat -> (i + n <= 4)%nat -> N.testbit (w_reg s') (N.of_nat (4 * m + j)) = if (m =? t)%nat && (i <=? j)%nat && (j <? i + n)%nat then wl_to l =? AWAKE else N.testbit (w_reg s) (N.of_nat (4 * m + j))) /\
  (forall m j, w_conv s' m j = if (m =? t)%nat && (i <=? j)%nat && (j <? i + n)%nat then wl_to l =? AWAKE else w_conv s m j).
Proof.
  induction n as [|n IH]; intros i l s So.
  - cbn [seq flat_map wexec]. exists s. split; [reflexivity|]. split; [reflexivity|]. split.
    + intros m j _ _. destruct (Nat.leb_spec i j), (Nat.ltb_spec j (i + 0)); try lia; rewrite ?andb_false_r; reflexivity.
    + intros m j. destruct (Nat.leb_spec i j), (Nat.ltb_spec j (i + 0)); try lia; rewrite ?andb_false_r; reflexivity.
  - cbn [seq flat_map]. unfold body at 1. cbn [app wexec]. cbn [waccess].
    set (l1 := WLocal (wl_to l) (w_reg s)).
    pose proof (stored t st i l1 s So eq_refl) as [E1 B1]. set (s1 := snd (waccess t st (WStore i) l1 s)) in *. 
    pose proof (conved t st i l1 s1 So) as (E2 & B2 & C2). set (s2 := snd (waccess t st (WConv i) l1 s1)) in *.
    destruct (IH (S i) l1 s2 So) as (s' & R & A1 & A2 & A3). exists s'.
    split; [exact R|]. split; [rewrite A1, E2, E1; reflexivity|]. split.
    + intros m j Lj Ln. rewrite A2, B2, B1 by lia. cbn [wl_to l1]. destruct (Nat.eqb_spec m t) as [->|Hm]; cbn [andb].
      * destruct (N.eqb_spec (N.of_nat (4 * t + j)) (N.of_nat (4 * t + i))) as [Ep|Np]; destruct (Nat.leb_spec (S i) j), (Nat.ltb_spec j (S i + n)), (Nat.leb_spec i j), (Nat.ltb_spec j (i + S n)); try lia; reflexivity.
      * destruct (N.eqb_spec (N.of_nat (4 * m + j)) (N.of_nat (4 * t + i))) as [Ep|Np]; [lia|reflexivity].
    + intros m j. rewrite A3, C2, E1. cbn [wl_to l1 put_reg w_conv]. destruct (Nat.eqb_spec m t) as [->|Hm]; cbn [andb]; [|reflexivity].
      destruct (Nat.eqb_spec j i), (Nat.leb_spec (S i) j), (Nat.ltb_spec j (S i + n)), (Nat.leb_spec i j), (Nat.ltb_spec j (i + S n)); try lia; reflexivity.
Qed.
Section Irq.
Variable txn : nat -> nat.
Hypothesis txn_le : forall m, (txn m <= 4)%nat.
(** a whole switch *)
Lemma switch_effect t st s : state_ok st ->
  (forall m, w_silent (switch txn t st s) m = if (m =? t)%nat then st else w_silent s m) /\
  (forall m j, (j < 4)%nat -> N.testbit (w_reg (switch txn t st s)) (N.of_nat (4 * m + j)) = if (m =? t)%nat && (j <? txn t)%nat then st =? AWAKE else N.testbit (w_reg s) (N.of_nat (4 * m + j))) /\
  (forall m j, w_conv (switch txn t st s) m j = if (m =? t)%nat && (j <? txn t)%nat then st =? AWAKE else w_conv s m j).
Proof.
  intro S. unfold switch, switch_prog. cbn [wexec waccess]. cbn [put_silent w_silent]. rewrite Nat.eqb_refl. cbn [wl_tmp].
  destruct (loop_effect t st (txn t) 0 (WLocal st 0) (put_silent s t st) S) as (s' & R & A & B & C).
  change (flat_map body (seq 0 (txn t))) with (flat_map (fun i => [WLoad i; WStore i; WConv i]) (seq 0 (txn t))) in R. rewrite R. split; [|split].
  - intro m. rewrite A. reflexivity.
  - intros m j Lj. rewrite B by (try lia; apply txn_le). cbn [Nat.leb Nat.add wl_to put_silent w_reg]. rewrite andb_true_r. reflexivity.
  - intros m j. rewrite C. cbn [Nat.leb Nat.add wl_to put_silent w_conv]. rewrite andb_true_r. reflexivity.
Qed.
Definition msound (s : sw) (m : nat) : Prop :=
  state_ok (w_silent s m) /\ (forall i, (i < 4)%nat -> N.testbit (w_reg s) (N.of_nat (4 * m + i)) = (i <? txn m)%nat && (w_silent s m =? AWAKE)) /\
  (forall i, (i < txn m)%nat -> w_conv s m i = (w_silent s m =? AWAKE)).
Lemma same_msound s s' m : w_silent s' m = w_silent s m -> (forall j, (j < 4)%nat -> N.testbit (w_reg s') (N.of_nat (4 * m + j)) = N.testbit (w_reg s) (N.of_nat (4 * m + j))) ->
  (forall j, w_conv s' m j = w_conv s m j) -> msound s m -> msound s' m.
Proof. intros A B C (S1 & S2 & S3). unfold msound. rewrite A. split; [exact S1|]. split; intros i L; [rewrite B by exact L; apply S2; exact L|rewrite C; apply S3; exact L]. Qed.
Lemma switch_other t st s m : state_ok st -> m <> t -> msound s m -> msound (switch txn t st s) m.
Proof. intros S N H. destruct (switch_effect t st s S) as (A & B & C). apply Nat.eqb_neq in N. apply (same_msound s); auto; intros; rewrite ?A, ?B, ?C by assumption; rewrite N; reflexivity. Qed.
Lemma switch_self t st s : state_ok st -> (forall j, (txn t <= j < 4)%nat -> N.testbit (w_reg s) (N.of_nat (4 * t + j)) = false) -> msound (switch txn t st s) t.
Proof.
  intros S H. destruct (switch_effect t st s S) as (A & B & C). unfold msound. rewrite A, Nat.eqb_refl. split; [exact S|]. split; intros i L.
  - rewrite B, Nat.eqb_refl by exact L. cbn [andb]. destruct (Nat.ltb_spec i (txn t)); [reflexivity|]. rewrite H by lia. reflexivity.
  - rewrite C, Nat.eqb_refl. destruct (Nat.ltb_spec i (txn t)); [reflexivity|lia].
Qed.
Lemma msound_high s m : msound s m -> forall j, (txn m <= j < 4)%nat -> N.testbit (w_reg s) (N.of_nat (4 * m + j)) = false.
Proof. intros (_ & H & _) j L. rewrite H by lia. destruct (Nat.ltb_spec j (txn m)); [lia|reflexivity]. Qed.
(** frames of a module in a consistent state *)
Definition frames_of (s : sw) (m : nat) : list wframe := flat_map (fun i => if N.testbit (w_reg s) (N.of_nat (4 * m + i)) then [(m, i, w_conv s m i)] else []) (seq 0 4).
Lemma msound_frames s m : msound s m -> frames_of s m = wanted_of txn (w_silent s) m.
Proof.
  intros (_ & B & C). unfold frames_of, wanted_of. cbn [seq flat_map]. rewrite !B by lia. pose proof (txn_le m) as L. destruct (w_silent s m =? AWAKE).
  - assert (txn m = 0 \/ txn m = 1 \/ txn m = 2 \/ txn m = 3 \/ txn m = 4)%nat as D by lia.
    destruct D as [D|[D|[D|[D|D]]]]; rewrite D in *; cbn [Nat.ltb Nat.leb andb app map seq]; rewrite ?C by lia; reflexivity.
  - rewrite !andb_false_r. reflexivity.
Qed.
Lemma filter_frames s m : (m < 8)%nat -> filter (of_module m) (frames s) = frames_of s m.
Proof.
  intro L. unfold frames. change (fun m => flat_map (fun i => if N.testbit (w_reg s) (N.of_nat (4 * m + i)) then [(m, i, w_conv s m i)] else []) (seq 0 4)) with (frames_of s).
  assert (forall l, filter (of_module m) (flat_map (frames_of s) l) = flat_map (fun m' => if (m' =? m)%nat then frames_of s m else []) l) as F.
  { induction l as [|m' l IH]; [reflexivity|]. cbn [flat_map]. rewrite filter_app, IH. f_equal. unfold frames_of at 1. cbn [seq flat_map].
    destruct (Nat.eqb_spec m' m) as [->|N].
    - unfold frames_of. cbn [seq flat_map]. rewrite !filter_app. repeat (destruct (N.testbit _ _)); cbn [filter app]; unfold of_module; cbn [fst]; rewrite ?Nat.eqb_refl; reflexivity.
    - apply Nat.eqb_neq in N. rewrite !filter_app. repeat (destruct (N.testbit _ _)); cbn [filter app]; unfold of_module; cbn [fst]; rewrite ?N; reflexivity. }
  rewrite F. do 8 (destruct m as [|m]; [cbn [seq flat_map Nat.eqb app]; rewrite ?app_nil_r; reflexivity|]). lia.
Qed.
Lemma sound_frames s : sound txn s -> frames s = wanted txn (w_silent s).
Proof.
  intro H. unfold frames, wanted. change (fun m => flat_map (fun i => if N.testbit (w_reg s) (N.of_nat (4 * m + i)) then [(m, i, w_conv s m i)] else []) (seq 0 4)) with (frames_of s).
  assert (forall l, (forall m, In m l -> (m < 8)%nat) -> flat_map (frames_of s) l = flat_map (wanted_of txn (w_silent s)) l) as F.
  { induction l as [|m l IH]; intro L; [reflexivity|]. cbn [flat_map]. rewrite IH by (intros; apply L; right; assumption). rewrite msound_frames; [reflexivity|]. apply H. apply L. left. reflexivity. }
  apply F. intros m Hm. apply in_seq in Hm. lia.
Qed.
(** during the switch of [t] *)
Definition J (t : nat) (x : N) (i : nat) (s : sw) : Prop :=
  (forall m, (m < 8)%nat -> m <> t -> msound s m) /\ w_silent s t = x /\
  (forall j, (txn t <= j < 4)%nat -> N.testbit (w_reg s) (N.of_nat (4 * t + j)) = false) /\
  (forall j, (j < i)%nat -> (j < txn t)%nat -> N.testbit (w_reg s) (N.of_nat (4 * t + j)) = (x =? AWAKE) /\ w_conv s t j = (x =? AWAKE)).
Definition good_req (t : nat) (e : wreq) : Prop := r_busy e = t /\ forall m, (m < 8)%nat -> m <> t -> filter (of_module m) (r_frames e) = wanted_of txn (r_silent e) m.
Lemma irqs_J t x i : forall os s s' e, Forall (order_ok t) os -> J t x i s -> irqs txn t s os = (s', e) ->
  J t x i s' /\ Forall (good_req t) e /\ (forall m, m <> t -> w_silent s' m = irq_order os m (w_silent s m)) /\
  (forall j, (j < 4)%nat -> N.testbit (w_reg s') (N.of_nat (4 * t + j)) = N.testbit (w_reg s) (N.of_nat (4 * t + j))).
Proof.
  induction os as [|o os IH]; intros s s' e O H R; cbn [irqs] in R.
  - injection R as <- <-. split; [exact H|]. split; [constructor|]. split; [intros; reflexivity|]. intros; reflexivity.
  - inversion O as [|o' os' O1 O2]; subst. destruct o as [|t' st].
    + destruct (irqs txn t s os) as [s1 e1] eqn:E. injection R as <- <-. destruct (IH _ _ _ O2 H E) as (A & B & C & D). split; [exact A|]. split; [|split; [exact C|exact D]].
      constructor; [|exact B]. split; [reflexivity|]. intros m L N. cbn [r_frames r_silent]. rewrite filter_frames by exact L. apply msound_frames. apply H; assumption.
    + destruct O1 as (L1 & N1 & S1). destruct (switch_effect t' st s S1) as (A & B & C).
      assert (J t x i (switch txn t' st s)) as HJ.
      { destruct H as (H1 & H2 & H3 & H4). split; [|split; [|split]].
        - intros m Lm Nm. destruct (Nat.eq_dec m t') as [->|Nm']; [|apply switch_other; auto]. apply switch_self; [exact S1|]. apply msound_high. apply H1; assumption.
        - rewrite A. destruct (Nat.eqb_spec t t'); [congruence|exact H2].
        - intros j Lj. rewrite B by lia. destruct (Nat.eqb_spec t t'); [congruence|]. apply H3. exact Lj.
        - intros j Lj Lt. pose proof (txn_le t). rewrite B, C by lia. destruct (Nat.eqb_spec t t'); [congruence|]. apply H4; assumption. }
      destruct (IH _ _ _ O2 HJ R) as (A' & B' & C' & D'). split; [exact A'|]. split; [exact B'|]. split.
      * intros m Nm. rewrite C' by exact Nm. cbn [irq_order]. rewrite A. reflexivity.
      * intros j Lj. rewrite D', B by exact Lj. destruct (Nat.eqb_spec t t'); [congruence|reflexivity].
Qed.
Lemma irq_order_app a b m x : irq_order (a ++ b) m x = irq_order b m (irq_order a m x).
Proof. revert x. induction a as [|[|t st] a IH]; intro x; cbn [app irq_order]; [reflexivity|apply IH|apply IH]. Qed.
Lemma irq_order_self t : forall os x, Forall (order_ok t) os -> irq_order os t x = x.
Proof. induction os as [|[|t' st] os IH]; intros x O; cbn [irq_order]; [reflexivity| |]; inversion O as [|? ? O1 O2]; subst; [apply IH; exact O2|]. destruct O1 as (_ & N & _). destruct (Nat.eqb_spec t t'); [congruence|apply IH; exact O2]. Qed.
Lemma waccess_pair t st a l s : waccess t st a l s = (fst (waccess t st a l s), snd (waccess t st a l s)).
Proof. destruct (waccess t st a l s). reflexivity. Qed.
Lemma loop_J t st irq x : polite t irq -> state_ok x -> forall n i l s s' e, (i + n = txn t)%nat -> wl_to l = x -> J t x i s ->
  swexec txn t st irq (2 + 3 * i) (flat_map body (seq i n)) l s = (s', e) ->
  J t x (txn t) s' /\ Forall (good_req t) e /\ (forall m, m <> t -> w_silent s' m = irq_order (flat_map irq (seq (2 + 3 * i) (1 + 3 * n))) m (w_silent s m)).
Proof.
  intros [P Q] So. induction n as [|n IH]; intros i l s s' e L T H R.
  - cbn [seq flat_map swexec] in R. destruct (irqs txn t s (irq (2 + 3 * i)%nat)) as [s1 e1] eqn:E. injection R as <- <-. destruct (irqs_J _ _ _ _ _ _ _ (P _) H E) as (A & B & C & _).
    replace (txn t) with i by lia. split; [exact A|]. split; [exact B|]. intros m N. change (seq (2 + 3 * i) (1 + 3 * 0)) with [(2 + 3 * i)%nat]. cbn [flat_map]. rewrite app_nil_r. apply C. exact N.
  - cbn [seq flat_map] in R. unfold body at 1 in R. cbn [app swexec] in R.
    destruct (irqs txn t s (irq (2 + 3 * i)%nat)) as [s1 e1] eqn:E1. destruct (irqs_J _ _ _ _ _ _ _ (P _) H E1) as (J1 & G1 & O1 & _).
    cbn [waccess] in R. rewrite T in R. change (S (2 + 3 * i))%nat with (3 + 3 * i)%nat in R. rewrite (Q i) in R. cbn [irqs] in R. set (l1 := WLocal x (w_reg s1)) in *.
    assert (state_ok (wl_to l1)) as S1 by exact So. destruct (stored t st i l1 s1 S1 eq_refl) as [Es Bs]. 
    match type of R with context[irqs txn t ?z (irq (S (3 + 3 * i))%nat)] => set (s2 := z) in * end.
    assert (w_silent s2 = w_silent s1 /\ J t x i s2 /\ N.testbit (w_reg s2) (N.of_nat (4 * t + i)) = (x =? AWAKE)) as (W2 & J2 & K2).
    { change s2 with (snd (waccess t st (WStore i) l1 s1)). rewrite Es. clear R Es s2. destruct J1 as (H1 & H2 & H3 & H4). cbn [put_reg w_reg w_silent w_conv].
      assert (forall m j, (j < 4)%nat -> (m <> t \/ j <> i) -> N.testbit (w_reg (snd (waccess t st (WStore i) l1 s1))) (N.of_nat (4 * m + j)) = N.testbit (w_reg s1) (N.of_nat (4 * m + j))) as X.
      { intros m j Lj D. rewrite Bs. pose proof (txn_le t). destruct (N.eqb_spec (N.of_nat (4 * m + j)) (N.of_nat (4 * t + i))); [lia|reflexivity]. }
      split; [reflexivity|]. split; [split; [|split; [|split]]|].
      - intros m Lm Nm. apply (same_msound s1); [reflexivity| |reflexivity|apply H1; assumption]. intros j Lj. apply X; [exact Lj|left; exact Nm].
      - exact H2.
      - intros j Lj. cbn [put_reg w_reg]. rewrite X by lia. apply H3. exact Lj.
      - intros j Lj Lt. cbn [put_reg w_reg w_conv]. pose proof (txn_le t). rewrite X by lia. apply H4; assumption.
      - rewrite Bs, N.eqb_refl. reflexivity. }
    clearbody s2.
    destruct (irqs txn t s2 (irq (S (3 + 3 * i))%nat)) as [s3 e3] eqn:E3. destruct (irqs_J _ _ _ _ _ _ _ (P _) J2 E3) as (J3 & G3 & O3 & D3). rewrite <- D3 in K2 by (pose proof (txn_le t); lia).
    destruct (conved t st i l1 s3 S1) as (C1 & C2 & C3).
    match type of R with context[swexec txn t st irq ?k ?p ?l ?z] => set (s4 := z) in * end.
    assert (w_silent s4 = w_silent s3 /\ J t x (S i) s4) as [W4 J4].
    { change s4 with (snd (waccess t st (WConv i) l1 s3)). clearbody s4. clear R. split; [exact C1|]. destruct J3 as (H1 & H2 & H3 & H4). split; [|split; [|split]].
      - intros m Lm Nm. apply (same_msound s3); [rewrite C1; reflexivity|intros; rewrite C2; reflexivity| |apply H1; assumption]. intro j. rewrite C3. destruct (Nat.eqb_spec m t); [congruence|reflexivity].
      - rewrite C1. exact H2.
      - intros j Lj. rewrite C2. apply H3. exact Lj.
      - intros j Lj Lt. rewrite C2, C3, Nat.eqb_refl. cbn [andb]. destruct (Nat.eqb_spec j i) as [->|Nj]; [split; [exact K2|reflexivity]|]. apply H4; lia. }
    clearbody s4. destruct (swexec txn t st irq (S (S (3 + 3 * i))) (flat_map body (seq (S i) n)) l1 s4) as [s5 e5] eqn:E5. injection R as <- <-.
    replace (S (S (3 + 3 * i)))%nat with (2 + 3 * S i)%nat in E5 by lia.
    destruct (IH (S i) l1 s4 s5 e5 ltac:(lia) eq_refl J4 E5) as (A & B & C). split; [exact A|]. split.
    + apply Forall_app. split; [exact G1|]. cbn [app]. apply Forall_app. split; assumption.
    + intros m Nm. rewrite C by exact Nm. rewrite W4, O3 by exact Nm.
      rewrite W2, O1 by exact Nm. replace (1 + 3 * S n)%nat with (3 + (1 + 3 * n))%nat by lia. rewrite (seq_app 3 (1 + 3 * n)), flat_map_app, irq_order_app. replace (2 + 3 * i + 3)%nat with (2 + 3 * S i)%nat by lia.
      assert (forall k, flat_map irq (seq k 3) = irq k ++ irq (S k) ++ irq (S (S k))) as X by (intro k; cbn [seq flat_map]; rewrite app_nil_r; reflexivity).
      rewrite (X (2 + 3 * i)%nat). change (irq (S (2 + 3 * i))) with (irq (3 + 3 * i)%nat). rewrite (Q i). cbn [app]. rewrite irq_order_app. reflexivity.
Qed.
(** one call of the application *)
Lemma call_ok t st irq s s' e : (t < 8)%nat -> state_ok st -> polite t irq -> sound txn s -> swexec txn t st irq 0 (switch_prog (txn t)) (WLocal st 0) s = (s', e) ->
  sound txn s' /\ Forall (good_req t) e /\ w_silent s' t = st /\ (forall m, m <> t -> w_silent s' m = irq_order (flat_map irq (seq 0 (3 + 3 * txn t))) m (w_silent s m)).
Proof.
  intros Lt So P Hs R. destruct P as [P Q]. unfold switch_prog in R. cbn [swexec] in R. change (fun i => [WLoad i; WStore i; WConv i]) with body in R.
  assert (J t (w_silent s t) 0 s) as J0. { split; [intros m L _; apply Hs; exact L|]. split; [reflexivity|]. split; [apply msound_high; apply Hs; exact Lt|intros; lia]. }
  destruct (irqs txn t s (irq 0%nat)) as [s1 e1] eqn:E1. destruct (irqs_J _ _ _ _ _ _ _ (P _) J0 E1) as (J1 & G1 & O1 & _).
  cbn [waccess] in R. set (s2 := put_silent s1 t st) in *.
  assert (J t st 0 s2) as J2.
  { destruct J1 as (H1 & H2 & H3 & H4). split; [|split; [|split]].
    - intros m L N. apply (same_msound s1); [|reflexivity|reflexivity|apply H1; assumption]. cbn [s2 put_silent w_silent]. destruct (Nat.eqb_spec m t); [congruence|reflexivity].
    - cbn [s2 put_silent w_silent]. rewrite Nat.eqb_refl. reflexivity.
    - exact H3.
    - intros; lia. }
  assert (forall m, m <> t -> w_silent s2 m = w_silent s1 m) as W2. { intros m N. cbn [s2 put_silent w_silent]. destruct (Nat.eqb_spec m t); [congruence|reflexivity]. }
  clearbody s2. destruct (irqs txn t s2 (irq 1%nat)) as [s3 e3] eqn:E3. destruct (irqs_J _ _ _ _ _ _ _ (P _) J2 E3) as (J3 & G3 & O3 & _).
  cbn [wl_tmp] in R. destruct (swexec txn t st irq 2 (flat_map body (seq 0 (txn t))) (WLocal (w_silent s3 t) 0) s3) as [s4 e4] eqn:E4. injection R as <- <-.
  destruct J3 as (H1 & H2 & H3 & H4). rewrite H2 in E4. assert (J t st 0 s3) as J3 by (split; [exact H1|split; [exact H2|split; [exact H3|exact H4]]]).
  destruct (loop_J t st irq st (conj P Q) So (txn t) 0%nat (WLocal st 0) s3 s4 e4 eq_refl eq_refl J3 E4) as (J4 & G4 & O4). destruct J4 as (K1 & K2 & K3 & K4).
  split; [|split; [|split; [exact K2|]]].
  - intros m L. destruct (Nat.eq_dec m t) as [->|N]; [|apply K1; assumption]. rewrite K2. split; [exact So|]. split; intros i Li.
    + destruct (Nat.ltb_spec i (txn t)); [apply K4; assumption|]. apply K3. lia.
    + apply K4; assumption.
  - apply Forall_app. split; [exact G1|]. apply Forall_app. split; assumption.
  - intros m N. rewrite O4, O3, W2, O1 by exact N. change (3 + 3 * txn t)%nat with (2 + (1 + 3 * txn t))%nat. rewrite (seq_app 2 (1 + 3 * txn t)), flat_map_app, irq_order_app.
    assert (flat_map irq (seq 0 2) = irq 0%nat ++ irq 1%nat) as -> by (cbn [seq flat_map]; rewrite app_nil_r; reflexivity). rewrite irq_order_app. reflexivity.
Qed.
Theorem run_ok : forall h s s' e, polite_hist h -> sound txn s -> wrun txn s h = (s', e) ->
  sound txn s' /\ (forall m, w_silent s' m = ordered txn h m (w_silent s m)) /\ Forall (fun r => good_req (r_busy r) r) e.
Proof.
  induction h as [|[[t st] irq] h IH]; intros s s' e P Hs R; cbn [wrun] in R.
  - injection R as <- <-. split; [exact Hs|]. split; [intros; reflexivity|constructor].
  - inversion P as [|x l (Lt & So & Po) P2]; subst. cbn [fst snd] in *. destruct (swexec txn t st irq 0 (switch_prog (txn t)) (WLocal st 0) s) as [s1 e1] eqn:E1.
    destruct (call_ok t st irq s s1 e1 Lt So Po Hs E1) as (A & B & C & D). destruct (wrun txn s1 h) as [s2 e2] eqn:E2. injection R as <- <-.
    destruct (IH _ _ _ P2 A E2) as (A' & B' & C'). split; [exact A'|]. split.
    + intro m. rewrite B'. cbn [ordered]. f_equal. destruct (Nat.eqb_spec m t) as [->|N].
      * rewrite C, irq_order_self; [reflexivity|]. apply Forall_flat_map. apply Forall_forall. intros k _. apply Po.
      * rewrite D by exact N. change (seq 0 (3 + 3 * txn t)) with (0%nat :: seq 1 (2 + 3 * txn t)). cbn [flat_map]. rewrite irq_order_app. reflexivity.
    + apply Forall_app. split; [|exact C']. eapply Forall_impl; [|exact B]. intros r G. destruct G as [<- G]. split; [reflexivity|exact G].
Qed.
End Irq.
