(** C115: switching the transmission of single objects on and off. *)
From Verif Require Import Words ErrModel NodeModel NodeSpec NodeSend NodeTxP NodeNr NodeEx TxSwModel TxSwSpec TxSw TxSwLast NodeHw NodeTx.
Definition sleep1 (k nr : N) : op := OpSilent [109;111;100;k;0] nr SILENT.
Definition wake1 (k nr : N) : op := OpSilent [109;111;100;k;0] nr AWAKE.

(** C115: after any history without number and type changes and any sequence of switches of transmit objects, the next
    process request sends exactly the objects whose last switch was "on", and the objects without a switch whose module is
    awake, each once and in table order, with the data of the history; then at most one error message.
    The calls are total. *)
Theorem C115_sent_partial : forall E pre l s, env_ok E -> Forall (plain E) pre -> reached E pre s ->
  (forall c, In c l -> In (fst c) (all_objs s)) ->
  exists s1, tx_switches l s = Ret (tt, s1) /\
  forall id dlc data now, step E (OpFrame MO_PROCESS id dlc data now) s1 <> Hang /\
  forall s', step E (OpFrame MO_PROCESS id dlc data now) s1 = Ret (tt, s') ->
  exists new st, added s s' new /\ reports (m_nr (modat s 0)) (n_err s) st /\
    sent new = cyc_frames s (wanted s l) (JUNK E) ++ match pending_errors st with [] => [] | e :: _ => error_tx s e end.
Proof.
  intros E pre l s HE F R Hl. destruct (switches_total l s) as [s1 H1]. exists s1. split; [exact H1|]. intros id dlc data now.
  split; [exact (switched_ends E HE pre l id dlc data now s s1 F R Hl H1)|]. intros s' H. exact (switched_frames E HE pre l id dlc data now s s1 s' F R Hl H1 H).
Qed.
Print Assumptions C115_sent_partial.
(** C115: the switches stay in force.  Whatever follows them, received frames, process requests, calls of the
    application, as long as no module is added, renamed, silenced or woken: every later process request ends and sends
    exactly these objects, with the data of that moment. *)
Theorem C115_stays_partial : forall E pre l ops s s1 s2, env_ok E -> Forall (plain E) pre -> reached E pre s ->
  (forall c, In c l -> In (fst c) (all_objs s)) -> tx_switches l s = Ret (tt, s1) -> Forall (quiet E) ops -> run E ops s1 = Ret (tt, s2) ->
  forall id dlc data now, step E (OpFrame MO_PROCESS id dlc data now) s2 <> Hang /\
  forall s', step E (OpFrame MO_PROCESS id dlc data now) s2 = Ret (tt, s') ->
  exists new st, added s2 s' new /\ reports (m_nr (modat s2 0)) (n_err s2) st /\
    sent new = cyc_frames s2 (wanted s l) (JUNK E) ++ match pending_errors st with [] => [] | e :: _ => error_tx s2 e end.
Proof.
  intros E pre l ops s s1 s2 HE F R. exact (stays_I E pre l ops s s1 s2 HE (TxI_reached E HE _ _ F R) R).
Qed.
Print Assumptions C115_stays_partial.
(** C115: the calls change nothing else: everything except the set of objects to be sent is as before. *)
Theorem C115_nothing_else_partial : forall l s s1, Forall (fun c => (fst (fst c) < 8)%nat /\ (snd (fst c) < 4)%nat) l -> tx_switches l s = Ret (tt, s1) ->
  s1 = set_n_tx s (set_x_reg (n_tx s) (x_reg (n_tx s1))) /\
  forall p o, (o < 4)%nat -> ~ In (p, o) (map fst l) -> N.testbit (x_reg (n_tx s1)) (N.of_nat (4 * p + o)) = N.testbit (x_reg (n_tx s)) (N.of_nat (4 * p + o)).
Proof.
  intros l s s1 F H. destruct (switches_inv l s tt s1 F H) as [(B1 & B2 & B3 & B4) Rg]. split.
  - rewrite B1 at 1. f_equal. clear -B2 B3 B4. unfold set_x_reg. destruct (n_tx s1), (n_tx s). cbn in *. subst. reflexivity.
  - intros p o Lo Hn. change 4%nat with NOBJ. rewrite Rg by exact Lo. apply last_other, Hn.
Qed.
Print Assumptions C115_nothing_else_partial.

Definition sent_after (pre : list op) (l : list sw) (ops : list op) : res (list (N * N * list byte)) :=
  match tx_switches l (after pre) with
  | Ret (_, s1) => match run E0 ops s1 with Ret (_, s2) => Ret (sent (skipn (length (n_log (after pre))) (n_log s2))) | Undef => Undef | Hang => Hang end
  | Undef => Undef
  | Hang => Hang
  end.
Example C115_case :
  let l := [(0, 0, false); (1, 0, false); (0, 1, false); (0, 0, true)]%nat in
  Forall (plain E0) add2 /\ reached E0 add2 (after add2) /\ (forall c, In c l -> In (fst c) (all_objs (after add2))) /\
  all_objs (after add2) = [(0, 0); (0, 1); (1, 0)]%nat /\ wanted (after add2) l = [(0, 0)]%nat /\
  sent_after add2 [] [request 0 7] = Ret [(1060, 8, [4;4;4;4;4;4;4;4]); (1061, 8, [5;5;5;5;5;5;5;5]); (1100, 8, [6;6;6;6;6;6;6;6])] /\
  sent_after add2 l [request 0 7] = Ret [(1060, 8, [4;4;4;4;4;4;4;4])].
Proof.
  cbn zeta. split; [apply plainb_ok; vm_compute; reflexivity|]. split; [simple apply reached_after; vm_compute; reflexivity|].
  split; [|repeat split; vm_compute; reflexivity].
  replace (all_objs (after add2)) with [(0, 0); (0, 1); (1, 0)]%nat by (vm_compute; reflexivity). cbn [In]. intros c H. intuition (subst; cbn; auto).
Qed.

Example C115_stays_case :
  let ops := [request 0 7; OpWrite 4 [1;2;3;4;5;6;7;8]; sysmsg 10 [99;0;0;0;0;0;0;0]; request 0 20] in
  Forall (quiet E0) ops /\
  sent_after add2 [(0, 1, false)]%nat (ops ++ [request 0 30]) =
    Ret [(1060, 8, [4;4;4;4;4;4;4;4]); (1100, 8, [6;6;6;6;6;6;6;6]); (1060, 8, [1;2;3;4;5;6;7;8]); (1100, 8, [6;6;6;6;6;6;6;6]); (39, 8, [3;117;0;0;101;0;4;117]);
         (1060, 8, [1;2;3;4;5;6;7;8]); (1100, 8, [6;6;6;6;6;6;6;6])].
Proof.
  cbn zeta. split; [|vm_compute; reflexivity]. repeat (constructor; [cbn; try (intro; repeat split; discriminate); try discriminate; auto|]). constructor.
Qed.

(** C115, finding: switching on an object that is not configured.  Within the range of the configured objects a frame
    with identifier 0 and no data is sent in every cycle; behind it the next process request never ends, whatever the
    number of loop iterations. *)
Theorem C115_not_configured_refuted :
  reached E0 add2 (after add2) /\ ~ In (0, 2)%nat (all_objs (after add2)) /\ ~ In (2, 0)%nat (all_objs (after add2)) /\
  sent_after add2 [(0, 2, true)]%nat [request 0 7] =
    Ret [(1060, 8, [4;4;4;4;4;4;4;4]); (1061, 8, [5;5;5;5;5;5;5;5]); (0, 0, []); (1100, 8, [6;6;6;6;6;6;6;6])] /\
  exists s1, tx_switches [(2, 0, true)]%nat (after add2) = Ret (tt, s1) /\ step E0 (request 0 7) s1 = Hang /\
  forall fuel, send_loop E0 fuel (x_reg (n_tx s1)) 0 (JUNK E0) s1 = Hang.
Proof.
  split; [simple apply reached_after; vm_compute; reflexivity|].
  split; [|split; [|split; [vm_compute; reflexivity|]]]; try (replace (all_objs (after add2)) with [(0, 0); (0, 1); (1, 0)]%nat by (vm_compute; reflexivity); cbn; intuition discriminate).
  exists (upd_tx (fun x => set_x_reg x (N.lor (x_reg x) (txbit 2 0))) (after add2)). split; [reflexivity|]. split; [vm_compute; reflexivity|].
  set (s1 := upd_tx _ _). intro fuel. destruct fuel as [|fuel]; [reflexivity|]. replace (x_reg (n_tx s1)) with 275 by (vm_compute; reflexivity).
  assert (exists c1 a1 c2 a2 c3 a3, send_one E0 0 (JUNK E0) s1 = Ret (c1, a1) /\ send_one E0 1 c1 a1 = Ret (c2, a2) /\ send_one E0 4 c2 a2 = Ret (c3, a3) /\ x_end (n_tx a2) = 4%nat /\ x_end (n_tx a3) = 4%nat) as (c1 & a1 & c2 & a2 & c3 & a3 & H1 & H2 & H3 & X2 & X3).
  { do 6 eexists. repeat (split; [vm_compute; reflexivity|]). vm_compute; reflexivity. }
  rewrite (loop_send _ 275 _ _ _ _ _ eq_refl H1). destruct fuel as [|fuel]; [reflexivity|]. change (N.shiftr 275 1) with 137. rewrite (loop_send _ 137 _ _ _ _ _ eq_refl H2).
  destruct fuel as [|fuel]; [reflexivity|]. change (N.shiftr 137 1) with 68.
  assert (send_loop E0 (S fuel) 68 2 c2 a2 = bind (send_one E0 4 c2) (fun can' => send_loop E0 fuel 8 5 can') a2) as ->.
  { cbn [send_loop]. change (68 =? 0) with false. cbv iota. unfold bind at 1. unfold gets. rewrite X2. reflexivity. }
  unfold bind. rewrite H3. cbv beta iota.
  apply loop_stuck; [discriminate|reflexivity|]. rewrite X3. apply le_n.
Qed.
Print Assumptions C115_not_configured_refuted.
(** C115, finding: switching on an object of a silent module sends it although the module is silent, with the data of
    the object sent before it instead of its own. *)
Theorem C115_silent_refuted :
  reached E0 (add2 ++ [sleep1 50 20]) (after (add2 ++ [sleep1 50 20])) /\ awake (after (add2 ++ [sleep1 50 20])) 1 = false /\
  sent_after (add2 ++ [sleep1 50 20]) [(1, 0, true)]%nat [request 0 7] =
    Ret [(1060, 8, [4;4;4;4;4;4;4;4]); (1061, 8, [5;5;5;5;5;5;5;5]); (1100, 8, [5;5;5;5;5;5;5;5])].
Proof. split; [simple apply reached_after; vm_compute; reflexivity|]. split; vm_compute; reflexivity. Qed.
Print Assumptions C115_silent_refuted.
(** C115, finding: a switch does not last.  An object that was switched off is sent again after its module was silent
    for a while. *)
Theorem C115_lasting_refuted :
  sent_after add2 [(0, 0, false)]%nat [request 0 7] = Ret [(1061, 8, [5;5;5;5;5;5;5;5]); (1100, 8, [6;6;6;6;6;6;6;6])] /\
  sent_after add2 [(0, 0, false)]%nat [sleep1 49 10; wake1 49 10; request 0 7] =
    Ret [(1060, 8, [4;4;4;4;4;4;4;4]); (1061, 8, [5;5;5;5;5;5;5;5]); (1100, 8, [6;6;6;6;6;6;6;6])].
Proof. split; vm_compute; reflexivity. Qed.
Print Assumptions C115_lasting_refuted.
