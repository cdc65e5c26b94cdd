(** Proofs about bytes that were not received. *)
From Verif Require Import Words WordsFacts ErrModel NodeModel NodeServModel StaleSpec ConvModel.

Lemma all_eight dlc a b : same_frame dlc a b -> 8 <= dlc -> a = b.
Proof. intros (A & B & C) D. rewrite !firstn_all2 in C by lia. exact C. Qed.

Section Node.
Variable E : env.
Lemma rx_data_same s pos id dlc a b : conversions_ok s -> same_frame dlc a b -> rx_data_main E pos id dlc a s = rx_data_main E pos id dlc b s.
Proof.
  intros C S. unfold rx_data_main, bind, gets. destruct (CHK E && _); [reflexivity|]. destruct (CHK E && _); [reflexivity|].
  unfold call_rx. destruct (r_conv_s (rxat (modat s pos) (N.to_nat (N.land id 3)))) as [f|] eqn:F; [|reflexivity].
  unfold bind, gets. destruct (nth_error (n_mem s) _) as [app|]; [|reflexivity]. rewrite (C _ _ _ F a b app dlc S). reflexivity.
Qed.
Lemma on_data_same s mo id dlc a b : conversions_ok s -> same_frame dlc a b -> on_data E mo id dlc a s = on_data E mo id dlc b s.
Proof.
  intros C S. unfold on_data, bind at 1 3, gets. destruct (find_slot _ mo) as [pos|]; [|reflexivity].
  unfold bind. rewrite (rx_data_same s pos id dlc a b C S). reflexivity.
Qed.
Lemma on_sys_same s id dlc a b : same_frame dlc a b -> on_sys E id dlc a s = on_sys E id dlc b s.
Proof.
  intro S. unfold on_sys, sys_msg_rx. destruct (N.eqb_spec dlc 8) as [Ed|Ed]; [|reflexivity].
  rewrite (all_eight dlc a b S) by lia. reflexivity.
Qed.
Lemma frame_same s mo id dlc a b now : conversions_ok s -> same_frame dlc a b -> frame_rx E mo id dlc a now s = frame_rx E mo id dlc b now s.
Proof.
  intros C S. unfold frame_rx, bind at 1 4, gets. set (sy := is_sync_mo mo s).
  unfold bind.
  assert (D : (if sy then on_data E mo id dlc a else ret tt) s = (if sy then on_data E mo id dlc b else ret tt) s) by (destruct sy; [apply on_data_same; assumption|reflexivity]).
  rewrite D. destruct ((if sy then on_data E mo id dlc b else ret tt) s) as [[u s1]| |]; try reflexivity.
  destruct ((if (mo =? MO_PROCESS)%nat then on_process E dlc now else ret tt) s1) as [[v s2]| |]; try reflexivity.
  destruct (_ || _); [apply on_sys_same; exact S|reflexivity].
Qed.
Lemma async_same s mo id dlc a b x y s1 s2 : same_frame dlc a b ->
  async_rx mo id a s = Ret (x, s1) -> async_rx mo id b s = Ret (y, s2) -> s1 = s /\ s2 = s /\ Forall2 (same_message dlc) x y.
Proof.
  intros S A B. unfold async_rx, gets in A, B. injection A as <- <-. injection B as <- <-. split; [reflexivity|]. split; [reflexivity|].
  destruct (negb _); [|constructor]. induction (filter _ _) as [|z l IH]; cbn [map]; constructor; [split; [reflexivity|exact S]|exact IH].
Qed.
Lemma main_same s ext mo id dlc a b now : conversions_ok s -> same_frame dlc a b ->
  match main_rx E ext mo id dlc a now s, main_rx E ext mo id dlc b now s with
  | Ret (x, s1), Ret (y, s2) => s1 = s2 /\ Forall2 (same_message dlc) x y
  | Undef, Undef | Hang, Hang => True
  | _, _ => False
  end.
Proof.
  intros C S. unfold main_rx. destruct ext; [cbn; split; [reflexivity|constructor]|].
  unfold guard. destruct (dlc <=? 8); [|cbn; exact I]. unfold bind, ret. cbv beta iota.
  rewrite (frame_same s mo id dlc a b now C S). destruct (frame_rx E mo id dlc b now s) as [[u s1]| |]; try exact I.
  assert (T : Forall2 (same_message dlc) (tunnel_rx mo dlc a) (tunnel_rx mo dlc b)).
  { unfold tunnel_rx. destruct (_ =? _)%nat; [|constructor]. constructor; [|constructor]. cbn. split; [reflexivity|exact S]. }
  destruct (ASY E).
  - destruct (async_rx mo id a s1) as [[x s2]| |] eqn:A; [|discriminate A|discriminate A]. destruct (async_rx mo id b s1) as [[y s3]| |] eqn:B; [|discriminate B|discriminate B].
    destruct (async_same _ _ _ _ _ _ _ _ _ _ S A B) as (-> & -> & F). split; [reflexivity|]. apply Forall2_app; assumption.
  - cbn [app]. split; [reflexivity|constructor].
Qed.
End Node.

(** ** the conversion functions *)
Definition agree (n : nat) (a b : list byte) : Prop := forall i, (i < n)%nat -> nth_error a i = nth_error b i.
Lemma nth_firstn (n : nat) : forall (a : list byte) i, (i < n)%nat -> nth_error (firstn n a) i = nth_error a i.
Proof. induction n as [|n IH]; intros [|x a] [|i] L; try lia; try reflexivity. cbn [firstn nth_error]. apply IH. lia. Qed.
Lemma frame_agree dlc a b n : same_frame dlc a b -> (n <= N.to_nat dlc)%nat -> agree n a b.
Proof. intros (_ & _ & C) L i I. rewrite <- (nth_firstn (N.to_nat dlc) a), <- (nth_firstn (N.to_nat dlc) b) by lia. rewrite C. reflexivity. Qed.
Lemma half_le dlc : (2 * half dlc <= N.to_nat dlc)%nat.
Proof. unfold half. rewrite N.shiftr_div_pow2. change (2 ^ 1) with 2. lia. Qed.
Lemma quarter_le dlc : (4 * quarter dlc <= N.to_nat dlc)%nat.
Proof. unfold quarter. rewrite N.shiftr_div_pow2. change (2 ^ 2) with 4. lia. Qed.

Lemma up_same a b n : forall so dst d, agree (so + n) a b -> copy_up a so dst d n = copy_up b so dst d n.
Proof.
  induction n as [|n IH]; intros so dst d A; [reflexivity|]. cbn [copy_up]. unfold get. rewrite (A so) by lia. destruct (nth_error b so); [|reflexivity].
  destruct (upd dst d b0); [|reflexivity]. apply IH. intros i I. apply A. lia.
Qed.
Lemma down_same a b n : forall so dst d, agree (so + n) a b -> copy_down a so dst d n = copy_down b so dst d n.
Proof.
  induction n as [|n IH]; intros so dst d A; [reflexivity|]. cbn [copy_down]. unfold get. rewrite (A so) by lia. destruct (nth_error b so); [|reflexivity].
  destruct (upd dst (d + n) b0); [|reflexivity]. apply IH. intros i I. apply A. lia.
Qed.
Lemma load16_same le a b o : agree (o + 2) a b -> load16 le a o = load16 le b o.
Proof. intro A. unfold load16, get. rewrite (A o), (A (o + 1)%nat) by lia. reflexivity. Qed.
Lemma load32_same le a b o : agree (o + 4) a b -> load32 le a o = load32 le b o.
Proof. intro A. unfold load32. rewrite (load16_same le a b o), (load16_same le a b (o + 2)) by (intros i I; apply A; lia). reflexivity. Qed.
Lemma conv16_same f le a b n : forall so dst d, agree (so + 2 * n) a b -> conv16 f le a so dst d n = conv16 f le b so dst d n.
Proof.
  induction n as [|n IH]; intros so dst d A; [reflexivity|]. cbn [conv16]. rewrite (load16_same le a b so) by (intros i I; apply A; lia).
  destruct (load16 le b so); [|reflexivity]. destruct (store16 _ _ _ _); [|reflexivity]. apply IH. intros i I. apply A. lia.
Qed.
Lemma conv32_same f le a b n : forall so dst d, agree (so + 4 * n) a b -> conv32 f le a so dst d n = conv32 f le b so dst d n.
Proof.
  induction n as [|n IH]; intros so dst d A; [reflexivity|]. cbn [conv32]. rewrite (load32_same le a b so) by (intros i I; apply A; lia).
  destruct (load32 le b so); [|reflexivity]. destruct (store32 _ _ _ _); [|reflexivity]. apply IH. intros i I. apply A. lia.
Qed.
(** results in two buffers *)
Definition both (n : nat) (x y : option (list byte)) : Prop :=
  match x, y with Some a, Some b => length a = length b /\ agree n a b | None, None => True | _, _ => False end.
Lemma upd_both a b d v : length a = length b -> agree d a b -> both (S d) (upd a d v) (upd b d v).
Proof.
  intros L A. destruct (Nat.lt_ge_cases d (length a)) as [D|D].
  - destruct (upd_some _ a d v D) as [a' Ea]. destruct (upd_some _ b d v) as [b' Eb]; [lia|]. rewrite Ea, Eb. cbn.
    split; [rewrite (upd_length _ _ _ _ _ Ea), (upd_length _ _ _ _ _ Eb); exact L|]. intros i I. destruct (Nat.eq_dec d i) as [<-|N].
    + rewrite (upd_nth_same _ _ _ _ _ Ea), (upd_nth_same _ _ _ _ _ Eb). reflexivity.
    + rewrite (upd_nth_other _ _ _ _ _ _ Ea N), (upd_nth_other _ _ _ _ _ _ Eb N). apply A. lia.
  - rewrite (upd_none _ a d v D), (upd_none _ b d v) by lia. exact I.
Qed.
Lemma store16_both le a b d v : length a = length b -> agree d a b -> both (d + 2) (store16 le a d v) (store16 le b d v).
Proof.
  intros L A. unfold store16. cbv zeta. match goal with |- both _ (match upd _ _ ?x with Some _ => upd _ _ ?y | None => _ end) _ => generalize x, y end. intros x y.
  pose proof (upd_both a b d x L A) as B. destruct (upd a d x) as [a1|], (upd b d x) as [b1|]; cbn in B; try contradiction; [|exact I].
  destruct B as [L1 A1]. replace (d + 2)%nat with (S (d + 1)) by lia. apply upd_both; [exact L1|]. intros i I. apply A1. lia.
Qed.
Lemma conv16_both f le a b n : forall so x y d, agree (so + 2 * n) a b -> length x = length y -> agree d x y ->
  both (d + 2 * n) (conv16 f le a so x d n) (conv16 f le b so y d n).
Proof.
  induction n as [|n IH]; intros so x y d A L Y; cbn [conv16].
  - cbn. split; [exact L|]. intros i I. apply Y. lia.
  - rewrite (load16_same le a b so) by (intros i I; apply A; lia). destruct (load16 le b so) as [v|]; [|exact I].
    pose proof (store16_both le x y d (f v) L Y) as B. destruct (store16 le x d (f v)) as [x1|], (store16 le y d (f v)) as [y1|]; cbn in B; try contradiction; [|exact I].
    destruct B as [L1 A1]. replace (d + 2 * S n)%nat with (d + 2 + 2 * n)%nat by lia. apply IH; [intros i I; apply A; lia|exact L1|exact A1].
Qed.
Lemma uint32_same le a b app p dlc : same_frame dlc a b -> rx_uint32 le a app p dlc = rx_uint32 le b app p dlc.
Proof.
  intro S. unfold rx_uint32. assert (Q := quarter_le dlc). set (n := quarter dlc) in *. destruct le.
  - assert (B : both (0 + 2 * (2 * n)) (conv16 (fun v => rotl16 v 8) true a 0 a 0 (2 * n)) (conv16 (fun v => rotl16 v 8) true b 0 b 0 (2 * n))).
    { apply conv16_both; [apply (frame_agree dlc); [exact S|lia]|destruct S as (A & B & _); congruence|intros i I; lia]. }
    destruct (conv16 _ true a 0 a 0 (2 * n)) as [a1|], (conv16 _ true b 0 b 0 (2 * n)) as [b1|]; cbn in B; try contradiction; [|reflexivity].
    apply conv32_same. intros i I. apply B. lia.
  - apply conv32_same. apply (frame_agree dlc); [exact S|lia].
Qed.
Lemma high_same a b n : forall r app w, agree (r + n) a b -> rx12_high a r app w n = rx12_high b r app w n.
Proof.
  induction n as [|n IH]; intros r app w A; [reflexivity|]. cbn [rx12_high]. unfold get. rewrite (A r) by lia. destruct (load16 true app w); [|reflexivity].
  destruct (nth_error b r); [|reflexivity]. destruct (store16 _ _ _ _); [|reflexivity]. apply IH. intros i I. apply A. lia.
Qed.
Lemma low_same a b n : forall r app w, agree (r + n) a b -> rx12_low a r app w n = rx12_low b r app w n.
Proof.
  induction n as [|n IH]; intros r app w A; [reflexivity|]. cbn [rx12_low]. unfold get. rewrite (A r) by lia. destruct (nth_error b r); [|reflexivity].
  destruct (load16 true app w); [|reflexivity]. destruct (store16 _ _ _ _) as [a1|]; [|reflexivity]. destruct (load16 true a1 (w + 2)); [|reflexivity].
  destruct (store16 true a1 (w + 2) _); [|reflexivity]. apply IH. intros i I. apply A. lia.
Qed.
