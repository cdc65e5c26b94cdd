(** C113: clearing the receive data of a module. *)
From Verif Require Import Words NodeModel MonModel MonSpec MonProofs MonProps MonInit MonClrModel MonClr.
From Coq Require Import Lia.

(** When the call succeeds on a module of the table, every receive object of the module holds, in the application's memory and
    in the memory of the monitor, what the conversion functions make of eight zero bytes; all other memory, the counters and the
    objects for transmission are untouched. *)
Theorem C113_cleared_partial : forall max err c pos m s s',
  nth_error c pos = Some m -> clr_rx max err c pos s = (s', true) ->
  (forall o r, nth_error (mm_rx m) o = Some r ->
     b_apprx s' pos o = put (ro_main r [0;0;0;0;0;0;0;0] (ro_dlc r)) (b_apprx s pos o) /\
     b_monrx s' pos o = put (ro_mon r [0;0;0;0;0;0;0;0] (ro_dlc r)) (b_monrx s pos o)) /\
  (forall p o, p <> pos \/ (length (mm_rx m) <= o)%nat -> b_apprx s' p o = b_apprx s p o /\ b_monrx s' p o = b_monrx s p o) /\
  s' = w_apprx (b_apprx s') (w_monrx (b_monrx s') s).
Proof.
  intros max err c pos m s s' Hp H. unfold clr_rx in H. destruct (max <=? pos)%nat; [discriminate|]. rewrite Hp in H.
  apply clr_eq in H. destruct H as (A & B & -> & H1 & H2 & _). split; [|split; [|reflexivity]].
  - intros o r Ho. apply (H2 eq_refl o r Ho).
  - intros p o K. apply H1. cbn. lia.
Qed.
Print Assumptions C113_cleared_partial.

(** When it fails, the position is not one of the table and nothing was changed, or a conversion function of the module
    reported an error; then, too, nothing but the receive objects of this module was changed. *)
Theorem C113_error_partial : forall max err c pos s s',
  clr_rx max err c pos s = (s', false) ->
  (max <= pos)%nat /\ s' = s \/
  exists m o, nth_error c pos = Some m /\ (o < length (mm_rx m))%nat /\ (err o false = true \/ err o true = true) /\
    (forall p q, p <> pos \/ (length (mm_rx m) <= q)%nat -> b_apprx s' p q = b_apprx s p q /\ b_monrx s' p q = b_monrx s p q) /\
    s' = w_apprx (b_apprx s') (w_monrx (b_monrx s') s).
Proof.
  intros max err c pos s s' H. unfold clr_rx in H. destruct (Nat.leb_spec max pos) as [L|L].
  - injection H as <-. left. auto.
  - right. destruct (nth_error c pos) as [m|]; [|discriminate]. apply clr_eq in H. destruct H as (A & B & -> & H1 & _ & H3).
    destruct (H3 eq_refl) as (i & Li & D). exists m, i. split; [reflexivity|]. split; [exact Li|]. split; [exact D|]. split; [|reflexivity].
    intros p q K. apply H1. cbn. lia.
Qed.
Print Assumptions C113_error_partial.

(** It fails exactly for the positions outside of the table and when a conversion function of the module reports an error. *)
Theorem C113_fails_partial : forall max err c pos s,
  snd (clr_rx max err c pos s) = false <->
  (max <= pos)%nat \/ exists m o, nth_error c pos = Some m /\ (o < length (mm_rx m))%nat /\ (err o false = true \/ err o true = true).
Proof.
  intros max err c pos s. destruct (clr_rx max err c pos s) as [s' ok] eqn:E. cbn [snd]. split.
  - intros ->. destruct (C113_error_partial _ _ _ _ _ _ E) as [[L _]|(m & o & A & B & D & _)]; [left; exact L|right; exists m, o; auto].
  - intro K. unfold clr_rx in E. destruct (Nat.leb_spec max pos) as [L|L]; [injection E as _ <-; reflexivity|].
    destruct K as [K|(m & o & A & B & D)]; [lia|]. rewrite A in E. destruct ok; [|reflexivity].
    destruct (clr_ok (mm_rx m) err pos 0 s ltac:(rewrite E; reflexivity) o B) as [K1 K2]. cbn in K1, K2. destruct D; congruence.
Qed.
Print Assumptions C113_fails_partial.

(** Before any data frame of the cycle for the module was received, on either controller, the call changes nothing that is
    observed later: no verdict, no frame.

    Partial: after frames were received this is not so (C113_hides_refuted). *)
Definition data_for (pos : nat) (e : mev) : bool := match e with MainData p _ _ _ | MonData p _ _ _ => (p =? pos)%nat | _ => false end.
Theorem C113_between_partial : forall c apprx app cap monrx h0 s o0 max err pos s' ok h,
  mrun c h0 (mon0 apprx app cap monrx) = Some (s, o0) -> full c ->
  Forall (fun e => data_for pos (fst e) = false) (cycle (annotate app cap h0)) ->
  clr_rx max err c pos s = (s', ok) -> Forall frame_ok h ->
  option_map snd (mrun c h s) = option_map snd (mrun c h s').
Proof.
  intros c apprx app cap monrx h0 s o0 max err pos s' ok h Hr F D H G.
  pose proof (inv_run c h0 app cap [] _ _ _ (inv0 c apprx app cap monrx) Hr) as I. fold (cycle (annotate app cap h0)) in I.
  set (w := cycle (annotate app cap h0)) in *.
  apply q_run; [exact F|exact G|].
  assert (Z : forall m o r, nth_error c pos = Some m -> nth_error (mm_rx m) o = Some r -> b_mrx s pos o = 0 /\ b_nrx s pos o = 0).
  { intros m o r Hp Ho. rewrite (i_mrx _ _ _ _ _ I _ _ _ _ Hp Ho), (i_nrx _ _ _ _ _ I _ _ _ _ Hp Ho).
    assert (count (on_main m pos o r) w = 0%nat /\ count (on_mon m pos o r) w = 0%nat) as [-> ->]; [|split; reflexivity].
    clear - D. induction D as [|e l E D IH]; [split; reflexivity|]. unfold count in *. cbn [filter].
    assert (on_main m pos o r e = false /\ on_mon m pos o r e = false) as [-> ->]; [|exact IH].
    unfold on_main, on_mon. destruct (fst e); cbn in E; try (split; reflexivity); unfold for_rx; rewrite E; split; reflexivity. }
  unfold clr_rx in H. destruct (max <=? pos)%nat; [injection H as <- <-; constructor; auto|].
  destruct (nth_error c pos) as [m|] eqn:Hp; [|injection H as <- <-; constructor; auto].
  apply clr_eq in H. destruct H as (A & B & -> & H1 & _). constructor; try reflexivity.
  intros p m' q r Hp' Ho'. cbn. destruct (Nat.eq_dec p pos) as [->|N].
  - rewrite Hp in Hp'. injection Hp' as <-. destruct (Z _ _ _ eq_refl Ho') as [Z1 Z2]. rewrite Z1, Z2. split; intro K; exfalso; apply K; reflexivity.
  - destruct (H1 p q (or_introl N)) as [-> ->]. split; reflexivity.
Qed.
Print Assumptions C113_between_partial.

(** Finding: the counters of received frames stay as they are.  The two controllers received different bytes; with the call
    between the frames and the next request the image is declared valid, without it it is not: the call hides the
    disagreement, and the valid image is not what the master sent. *)
Theorem C113_hides_refuted : exists h s o s' now,
  mrun tab5 h (mon0 z8 (app2 7 8) z8 z8) = Some (s, o) /\ clr_rx 8 (fun _ _ => false) tab5 0 s = (s', true) /\
  option_map (fun r => mverdicts (snd r)) (mrun tab5 [MainReq 1 now] s) = Some [(0%nat, false)] /\
  option_map (fun r => mverdicts (snd r)) (mrun tab5 [MainReq 1 now] s') = Some [(0%nat, true)].
Proof.
  exists [MainReq 1 10; MonReq 1 10; MainData 0 528 2 (fr 1 2); MonData 0 528 2 (fr 1 3); MonTx 0 1040 2 (fr 7 8) []].
  do 3 eexists. exists 20. split; [vm_compute; reflexivity|]. split; [vm_compute; reflexivity|]. split; vm_compute; reflexivity.
Qed.
Print Assumptions C113_hides_refuted.

(** the hypotheses are met after a cycle, and the bytes are cleared *)
Example C113_case : let h0 := [MainReq 1 10; MonReq 1 10] ++ frames 1 2 7 8 ++ [MainReq 1 20] in
  exists s o s', mrun tab5 h0 (mon0 z8 (app2 7 8) z8 z8) = Some (s, o) /\ full tab5 /\
    Forall (fun e => data_for 0 (fst e) = false) (cycle (annotate (app2 7 8) z8 h0)) /\
    clr_rx 8 (fun _ _ => false) tab5 0 s = (s', true) /\
    take 2 (b_apprx s 0%nat 0%nat) = [1;2] /\ take 2 (b_apprx s' 0%nat 0%nat) = [0;0] /\ take 2 (b_monrx s' 0%nat 0%nat) = [0;0].
Proof.
  cbv zeta. do 3 eexists. split; [vm_compute; reflexivity|]. split; [apply tab5_full|]. split.
  { change (cycle (annotate (app2 7 8) z8 ([MainReq 1 10; MonReq 1 10] ++ frames 1 2 7 8 ++ [MainReq 1 20]))) with [(MainReq 1 20, app2 7 8)].
    repeat constructor. }
  split; [vm_compute; reflexivity|]. split; [vm_compute; reflexivity|]. split; vm_compute; reflexivity.
Qed.
(** a position outside of the table, and a conversion that reports an error at the first object *)
Example C113_case_error : forall s, clr_rx 8 (fun _ _ => false) tab5 8 s = (s, false) /\ snd (clr_rx 8 (fun o b => b) tab5 0 s) = false.
Proof. intro s. split; reflexivity. Qed.
