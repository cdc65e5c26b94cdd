(** C90: an accepted asynchronous message goes out, also after an outage of the bus. *)
From Verif Require Import Words ErrModel NodeModel LookModel AsyncModel AsyncSpec AsyncProofs TunnelModel DrainModel DrainSpec.

(** what a call does to the list of waiting frames *)
Inductive astep (L : nat) : list dframe -> acall -> list dframe -> outcome -> Prop :=
| AsSent l c f l' : (length l < L)%nat -> a_dlc c <= 8 -> a_ty c = DSlave -> bus_free c -> l ++ [asked c] = f :: l' ->
    astep L l c l' (ERR_OK, Some f)
| AsKept l c : (length l < L)%nat -> a_dlc c <= 8 -> a_ty c = DSlave -> ~ bus_free c ->
    astep L l c (l ++ [asked c]) (ERR_OK, None)
| AsFull l c : (length l = L)%nat -> astep L l c l (E_DATA_TX_OVERFLOW, None)
| AsBad l c e : (length l < L)%nat -> e = E_DATA_TX_DLC \/ e = E_NOT_IMPLEMENTED -> astep L l c l (e, None).

Lemma asim L (HL : (0 < L)%nat) q l c : drel L q l -> acall_ok c ->
  exists q' o l', aput L q c = Some (q', o) /\ astep L l c l' o /\ drel L q' l'.
Proof.
  intros R K. destruct (dsim L HL q l (DPut (a_nr c) (a_ty c) (a_dlc c) (a_src c)) R K) as (q1 & r & l1 & E & S & R1).
  unfold aput. cbn [dtq_step] in E. destruct (dtq_put L q (a_nr c) (a_ty c) (a_dlc c) (a_src c)) as [[q0 e]|]; [|discriminate].
  injection E as -> <-. remember (a_ty c) as ty0 eqn:ET.
  inversion S as [l0 nr dlc src A B|l0 nr ty dlc src A|l0 nr ty dlc src A B|l0 nr dlc src A B| | |]; subst.
  - change (ERR_OK =? ERR_OK) with true. cbv iota. unfold main_handler_tx. destruct (a_on c) eqn:EO.
    + eexists _, _, _. split; [reflexivity|]. split; [|exact R1]. apply AsKept; auto.
      intros [F _]. rewrite EO in F. discriminate.
    + destruct (dsim L HL q1 _ (DHandle (a_hw c)) R1 I) as (q2 & r2 & l2 & E2 & S2 & R2). cbn [dtq_step] in E2.
      assert (P : (0 <? dq_state q1)%nat = true).
      { destruct R1 as (sl & [G1 G2 G3 G4 G5 G6] & GM & GF). apply Nat.ltb_lt. rewrite G4, <- (map_length frame_of), GM, app_length. cbn. lia. }
      rewrite P. destruct (dtq_handle L q1 (a_hw c)) as [[q3 [e3 f3]]|]; [|discriminate]. injection E2 as -> <-.
      inversion S2 as [| | | |f lx z1 z2 z3 z4|f lx hw NZ z1 z2 z3 z4|hw z1 z2 z3 z4]; subst.
      * change (ERR_OK =? ERR_OK) with true. cbv iota. eexists _, _, _. split; [reflexivity|]. split; [|exact R2].
        eapply AsSent; eauto. split; [exact EO|]. symmetry. assumption.
      * rewrite (proj2 (N.eqb_neq _ _) NZ). eexists _, _, _. split; [reflexivity|]. split; [|exact R2].
        match goal with H : _ = l ++ _ |- _ => rewrite H | H : l ++ _ = _ |- _ => rewrite <- H end.
        apply AsKept; auto. intros [_ F]. contradiction.
      * exfalso. destruct l; discriminate.
  - change (E_DATA_TX_OVERFLOW =? ERR_OK) with false. cbv iota. eexists _, _, _. split; [reflexivity|]. split; [|exact R1]. apply AsFull; first [assumption|reflexivity].
  - change (E_DATA_TX_DLC =? ERR_OK) with false. cbv iota. eexists _, _, _. split; [reflexivity|]. split; [|exact R1]. apply AsBad; auto.
  - change (E_NOT_IMPLEMENTED =? ERR_OK) with false. cbv iota. eexists _, _, _. split; [reflexivity|]. split; [|exact R1]. apply AsBad; auto.
Qed.

Lemma asteps L cs q os : (0 < L)%nat -> Forall acall_ok cs -> acalls L cs = Some (q, os) ->
  exists l, steps (astep L) [] cs l os /\ drel L q l.
Proof.
  intros HL K H. destruct (runs_steps (aput L) (astep L) (drel L) acall_ok (asim L HL) cs (dtq_zero L) []) as (q' & rs & l & A & B & C); auto.
  - apply drel_zero. exact HL.
  - unfold acalls in H. rewrite H in A. injection A as <- <-. exists l. auto.
Qed.
Lemma runs_app {S O R} (step : S -> O -> option (S * R)) : forall a b s s2 os, runs step s (a ++ b) = Some (s2, os) ->
  exists s1 r1 r2, runs step s a = Some (s1, r1) /\ runs step s1 b = Some (s2, r2) /\ os = r1 ++ r2.
Proof.
  induction a as [|o a IH]; intros b s s2 os H.
  - exists s, [], os. repeat split. exact H.
  - cbn [app runs] in *. destruct (step s o) as [[s1 r]|]; [|discriminate].
    destruct (runs step s1 (a ++ b)) as [[s3 rs]|] eqn:E; [|discriminate]. injection H as -> <-.
    destruct (IH _ _ _ _ E) as (s4 & r1 & r2 & A & B & ->). rewrite A. exists s4, (r :: r1), r2. repeat split. exact B.
Qed.
(** two stretches of calls *)
Lemma asteps2 L cs1 cs2 q1 os1 q os : (0 < L)%nat -> Forall acall_ok (cs1 ++ cs2) ->
  acalls L cs1 = Some (q1, os1) -> acalls L (cs1 ++ cs2) = Some (q, os) ->
  exists l1 l os2, os = os1 ++ os2 /\ steps (astep L) [] cs1 l1 os1 /\ steps (astep L) l1 cs2 l os2 /\ drel L q1 l1.
Proof.
  intros HL K H1 H. apply Forall_app in K. destruct K as [K1 K2]. unfold acalls in H.
  destruct (runs_app _ _ _ _ _ _ H) as (s & r1 & r2 & A & B & ->). unfold acalls in H1. rewrite H1 in A. injection A as <- <-.
  destruct (asteps L cs1 q1 os1 HL K1 H1) as (l1 & S1 & R1).
  destruct (runs_steps (aput L) (astep L) (drel L) acall_ok (asim L HL) cs2 q1 l1 R1 K2) as (q' & rs & l & A & S2 & _).
  rewrite B in A. injection A as <- <-. exists l1, l, r2. auto.
Qed.
Lemma steps_len {A O R} (step : A -> O -> A -> R -> Prop) a os c rs : steps step a os c rs -> length os = length rs.
Proof. induction 1; cbn; congruence. Qed.
Lemma acc_count : forall cs os, length cs = length os -> length (accepted cs os) = nr_accepted os.
Proof.
  induction cs as [|c cs IH]; intros [|[e f] os] H; try discriminate; [reflexivity|]. cbn [accepted]. unfold nr_accepted. cbn [filter fst].
  injection H as H. specialize (IH _ H). unfold nr_accepted in IH. destruct (e =? 0); cbn [length]; congruence.
Qed.
Lemma nr_acc_app a b : nr_accepted (a ++ b) = (nr_accepted a + nr_accepted b)%nat.
Proof. unfold nr_accepted. rewrite filter_app, app_length. reflexivity. Qed.
Lemma sent_app : forall a b, sent (a ++ b) = sent a ++ sent b.
Proof. induction a as [|[e [f|]] a IH]; intros b; cbn; rewrite ?IH; reflexivity. Qed.
Lemma asteps_fifo L l cs l' os : steps (astep L) l cs l' os -> l ++ accepted cs os = sent os ++ l'.
Proof.
  induction 1 as [a|a o b r os c rs S _ IE]; [cbn; apply app_nil_r|].
  inversion S as [l0 c0 f l1 A B C D E|l0 c0 A B C D|l0 c0 A|l0 c0 e A B]; subst; cbn [accepted sent].
  - change (ERR_OK =? 0) with true. cbv iota. cbn [app]. rewrite <- IE, app_comm_cons, <- E, <- app_assoc. reflexivity.
  - change (ERR_OK =? 0) with true. cbv iota. rewrite <- IE, <- app_assoc. reflexivity.
  - change (E_DATA_TX_OVERFLOW =? 0) with false. cbv iota. exact IE.
  - assert (Z : (e =? 0) = false) by (destruct B; subst e; reflexivity). rewrite Z. exact IE.
Qed.
Lemma asteps_grow L l cs l' os : steps (astep L) l cs l' os -> (length l <= length l')%nat.
Proof.
  induction 1 as [a|a o b r os c rs S _ IE]; [lia|].
  inversion S as [l0 c0 f l1 A B C D E|l0 c0 A B C D|l0 c0 A|l0 c0 e A B]; subst; try exact IE.
  - apply (f_equal (@length _)) in E. rewrite app_length in E. cbn in E. lia.
  - rewrite app_length in IE. lia.
Qed.
Lemma waiting_len L cs l os : steps (astep L) [] cs l os -> length l = (nr_accepted os - length (sent os))%nat.
Proof.
  intros S. pose proof (asteps_fifo _ _ _ _ _ S) as F. cbn in F. apply (f_equal (@length _)) in F.
  rewrite app_length, acc_count in F; [lia|]. exact (steps_len _ _ _ _ _ S).
Qed.

(** In order, each once, nothing else; for all outages. *)
Theorem C90_order_partial : forall L cs q os, (0 < L)%nat -> Forall acall_ok cs -> acalls L cs = Some (q, os) ->
  exists waiting, accepted cs os = sent os ++ waiting /\ (length waiting <= L)%nat.
Proof.
  intros L cs q os HL K H. destruct (asteps L cs q os HL K H) as (l & S & R). exists l. split.
  - exact (asteps_fifo _ _ _ _ _ S).
  - destruct R as (sl & [H1 H2 H3 H4 H5 H6] & M & F). rewrite <- M, map_length. lia.
Qed.
Print Assumptions C90_order_partial.

(** As long as the bus has always been free, every accepted message is with the controller when its call returns, and none
    is refused for want of space. *)
Theorem C90_immediate_partial : forall L cs q os, (0 < L)%nat -> Forall acall_ok cs -> Forall bus_free cs ->
  acalls L cs = Some (q, os) ->
  Forall2 (fun c o => o = (ERR_OK, Some (asked c)) \/ exists e, o = (e, None) /\ (e = E_DATA_TX_DLC \/ e = E_NOT_IMPLEMENTED)) cs os.
Proof.
  intros L cs q os HL K B H. destruct (asteps L cs q os HL K H) as (l & S & _). clear H q K. revert B.
  remember (@nil dframe) as l0 eqn:E0. revert E0. induction S as [a|a c b r cr d rs S T IH]; intros E0 B; [constructor|].
  inversion B as [|c' cr' Bc Br]; subst. inversion S as [l0 c0 f l1 A1 A2 A3 A4 E|l0 c0 A1 A2 A3 A4|l0 c0 A1|l0 c0 e A1 A2]; subst.
  - cbn in E. injection E as <- <-. constructor; [left; reflexivity|]. apply IH; auto.
  - contradiction.
  - exfalso. cbn in HL. lia.
  - constructor; [right; exists e; auto|]. apply IH; auto.
Qed.
Print Assumptions C90_immediate_partial.

(** Every history is defined. *)
Theorem C90_defined_partial : forall L cs, (0 < L)%nat -> Forall acall_ok cs -> exists q os, acalls L cs = Some (q, os).
Proof.
  intros L cs HL K. destruct (runs_steps (aput L) (astep L) (drel L) acall_ok (asim L HL) cs (dtq_zero L) []) as (q' & rs & l & A & _); auto.
  - apply drel_zero. exact HL.
  - exists q', rs. exact A.
Qed.
Print Assumptions C90_defined_partial.

(** Refuted after an outage: a backlog is never worked off.  Over any later stretch of calls [cs2], whatever the bus does, at
    most as many frames go out as messages come in; what waits at its beginning is still as much at its end. *)
Theorem C90_backlog_refuted : forall L cs1 cs2 q1 os1 q os, (0 < L)%nat -> Forall acall_ok (cs1 ++ cs2) ->
  acalls L cs1 = Some (q1, os1) -> acalls L (cs1 ++ cs2) = Some (q, os) ->
  exists os2, os = os1 ++ os2 /\ (length (sent os2) <= nr_accepted os2)%nat.
Proof.
  intros L cs1 cs2 q1 os1 q os HL K H1 H. destruct (asteps2 _ _ _ _ _ _ _ HL K H1 H) as (l1 & l & os2 & -> & X & Y & _).
  exists os2. split; [reflexivity|].
  pose proof (asteps_grow _ _ _ _ _ Y) as G. pose proof (asteps_fifo _ _ _ _ _ Y) as F.
  apply (f_equal (@length _)) in F. rewrite !app_length, acc_count in F; [lia|]. exact (steps_len _ _ _ _ _ Y).
Qed.
Print Assumptions C90_backlog_refuted.

(** Refuted for ever: once [L] accepted messages are waiting - because of [L] calls during a search or refused by the
    controller - every later call is refused and nothing is ever sent again, although the bus is free. *)
Theorem C90_stuck_refuted : forall L cs1 cs2 q1 os1 q os, (0 < L)%nat -> Forall acall_ok (cs1 ++ cs2) ->
  acalls L cs1 = Some (q1, os1) -> nr_accepted os1 = (length (sent os1) + L)%nat -> acalls L (cs1 ++ cs2) = Some (q, os) ->
  os = os1 ++ repeat (E_DATA_TX_OVERFLOW, None) (length cs2).
Proof.
  intros L cs1 cs2 q1 os1 q os HL K H1 W H. destruct (asteps2 _ _ _ _ _ _ _ HL K H1 H) as (l1 & l & os2 & -> & X & Y & _).
  f_equal. pose proof (waiting_len _ _ _ _ X) as E. rewrite W in E. assert (F : length l1 = L) by lia. clear - Y F.
  induction Y as [a|a c b r cr d rs S T IH]; [reflexivity|].
  inversion S as [l0 c0 f l1 A1 A2 A3 A4 E|l0 c0 A1 A2 A3 A4|l0 c0 A1|l0 c0 e A1 A2]; subst; try lia.
  cbn [length repeat]. f_equal. apply IH. reflexivity.
Qed.
Print Assumptions C90_stuck_refuted.

(** Refuted with it: the tunnel.  With the queue full, the call that completes a message does not return; no transmit
    interrupt exists that could end its loop. *)
Theorem C90_tunnel_refuted : forall t b, tn_state t = TActive -> (length (tx_data t) = 8)%nat -> tx_used t = 7%nat ->
  dq_state (tn_q t) = QLEN -> putc t 0 b [] = None.
Proof.
  intros [st p s o d c data used q] b A B C D. cbn in A, B, C, D. subst.
  unfold putc. change (0 + 1 =? 1)%nat with true. cbv iota. cbn [tn_state tx_data tx_used].
  do 9 (destruct data as [|? data]; try discriminate). cbn [upd]. cbv zeta. cbn [set_tx tx_used]. change (7 + 1 =? 8)%nat with true. cbv iota.
  unfold enqueue_loop, dtq_put. cbn [tn_q set_tx]. rewrite D. reflexivity.
Qed.
Print Assumptions C90_tunnel_refuted.

Definition aslave (on : bool) (x : N) : acall := ACall 10 DSlave 2 [x; 7] on 0.
Definition good : list acall := [aslave false 1; aslave false 2; ACall 10 DSlave 9 (repeat 0 9) false 0; aslave false 3].
Definition outage : list acall := [aslave false 1; aslave true 2; aslave true 3; aslave true 4; aslave true 5].
Lemma slaves_ok l : Forall acall_ok (map (fun p => aslave (fst p) (snd p)) l).
Proof. induction l as [|p l IH]; constructor; [repeat split; cbn; try lia; discriminate|exact IH]. Qed.
Example C90_case :
  option_map snd (acalls QLEN good) =
    Some [(ERR_OK, Some (id_of 10, 2, [1; 7])); (ERR_OK, Some (id_of 10, 2, [2; 7])); (E_DATA_TX_DLC, None); (ERR_OK, Some (id_of 10, 2, [3; 7]))] /\
  Forall bus_free good.
Proof. split; [reflexivity|]. repeat constructor. Qed.
(** one message during an outage: from then on every message goes out one call late; four: the end *)
Example C90_late_ex :
  option_map snd (acalls QLEN [aslave true 1; aslave false 2; aslave false 3]) =
    Some [(ERR_OK, None); (ERR_OK, Some (id_of 10, 2, [1; 7])); (ERR_OK, Some (id_of 10, 2, [2; 7]))].
Proof. reflexivity. Qed.
Example C90_stuck_ex : forall later q os, acalls QLEN (outage ++ map (aslave false) later) = Some (q, os) ->
  sent os = [(id_of 10, 2, [1; 7])].
Proof.
  intros later q os H.
  assert (K : Forall acall_ok (outage ++ map (aslave false) later)).
  { apply Forall_app. split; [exact (slaves_ok [(false, 1); (true, 2); (true, 3); (true, 4); (true, 5)])|].
    replace (map (aslave false) later) with (map (fun p => aslave (fst p) (snd p)) (map (pair false) later)); [apply slaves_ok|].
    rewrite map_map. reflexivity. }
  destruct (acalls QLEN outage) as [[q1 os1]|] eqn:E; [|discriminate E].
  assert (EO : Some os1 = option_map snd (acalls QLEN outage)) by (rewrite E; reflexivity).
  change (option_map snd (acalls QLEN outage)) with
    (Some [(ERR_OK, Some (id_of 10, 2, [1; 7])); (ERR_OK, None); (ERR_OK, None); (ERR_OK, None); (ERR_OK, None)]) in EO.
  injection EO as ->.
  assert (HL : (0 < QLEN)%nat) by (unfold QLEN; lia).
  assert (S := C90_stuck_refuted QLEN outage (map (aslave false) later) q1 _ q os HL K E eq_refl H). rewrite S.
  rewrite sent_app. cbn. f_equal. generalize (length (map (aslave false) later)). intro n. induction n; [reflexivity|exact IHn].
Qed.
Print Assumptions C90_stuck_ex.
Definition full_tunnel : tun :=
  Tun TActive 20 5 10 0 0 (repeat 65 8) 7 (match acalls QLEN outage with Some (q, _) => q | None => dtq_zero QLEN end).
Example C90_tunnel_ex : putc full_tunnel 0 66 [] = None.
Proof. apply C90_tunnel_refuted; reflexivity. Qed.
