(** C84: every received frame is handled by one service, once. *)
From Verif Require Import Words ErrModel NodeModel NodeSpec NodeHw NodeServModel NodeServSpec NodeServ NodeEx NodeCfgProps.

(** Whatever happened before and whichever message object a frame arrives at: either nothing is done, or exactly one of
    the services handles it: the process data of the one module the object is registered for, the process request (only
    its own object), the system messages (only their objects), the control messages (only control objects, all with the
    number of the identifier) or the tunnel (only its object); the others do not see it.  (Partial: a control message
    may be handed over twice, and the object of the process requests may be given other frames, below.) *)
Theorem C84_one_service_partial : forall E pre s mo id dlc data now, env_ok E -> reached E pre s -> (mo < NMSG E)%nat -> dlc <= 8 ->
  let out := main_rx E false mo id dlc data now s in
  out = Ret ([], s) \/
  (exists p, owner s mo = Some p /\ out = (rx_data_main E p id dlc data ;;; ret []) s) \/
  (mo = MO_PROCESS /\ out = (on_process E dlc now ;;; ret []) s) \/
  (sys_mo E mo = true /\ out = (on_sys E id dlc data ;;; ret []) s) \/
  (is_ctl s mo = true /\ exists n, out = Ret (repeat (HCtl (ctl_nr id) data) n, s)) \/
  (mo = MO_ASYNC_DATA /\ out = Ret ([HTunnel dlc data], s)).
Proof. intros E pre s mo id dlc data now HE. exact (one_service E HE pre s mo id dlc data now). Qed.
Print Assumptions C84_one_service_partial.
(** what arrives at the object of the asynchronous data is given to the tunnel, unchanged; *)
Theorem C84_tunnel_partial : forall E pre s id dlc data now, env_ok E -> reached E pre s -> ASY E = true -> dlc <= 8 ->
  main_rx E false MO_ASYNC_DATA id dlc data now s = Ret ([HTunnel dlc data], s).
Proof. intros E pre s id dlc data now HE. exact (tunnel_gets E HE pre s id dlc data now). Qed.
Print Assumptions C84_tunnel_partial.
(** frames with 29-bit identifiers have no effect *)
Theorem C84_extended_partial : forall E mo id dlc data now s, main_rx E true mo id dlc data now s = Ret ([], s).
Proof. reflexivity. Qed.
Print Assumptions C84_extended_partial.
(** as long as every module number is between 1 and 128, a frame that arrives at a control object is handed over at most
    once, and nothing else happens; *)
Theorem C84_control_once_partial : forall E pre s mo id dlc data now out, env_ok E -> small_history E pre s -> (mo < NMSG E)%nat -> dlc <= 8 -> is_ctl s mo = true ->
  main_rx E false mo id dlc data now s = Ret (out, s) -> out = [] \/ out = [HCtl (ctl_nr id) data].
Proof. intros E pre s mo id dlc data now out HE. exact (control_once E HE pre s mo id dlc data now out). Qed.
Print Assumptions C84_control_once_partial.
(** the control message for a module that has all its message objects is handed over exactly once, under the number of
    the module; *)
Theorem C84_control_delivered_partial : forall E pre s p dlc data now, env_ok E -> small_history E pre s -> ASY E = true -> complete E s p ->
  1 <= m_nr (modat s p) <= 128 -> dlc <= 8 ->
  main_rx E false (ctl_mo s p) (ctl_rx_id (m_nr (modat s p))) dlc data now s = Ret ([HCtl (m_nr (modat s p)) data], s).
Proof. intros E pre s p dlc data now HE. exact (delivered E HE pre s p dlc data now). Qed.
Print Assumptions C84_control_delivered_partial.
(** after a successful number change the module has another control object, and what arrives at the old one (which goes
    on listening to the old number) is dropped *)
Theorem C84_old_number_partial : forall E pre s type new actual s' p id dlc data now, env_ok E -> small_history E pre s -> ASY E = true ->
  named s type actual = Some p -> complete E s p -> 1 <= new <= 128 -> change_nr_ids E type new actual s = Ret (ERR_OK, s') -> dlc <= 8 ->
  main_rx E false (ctl_mo s p) id dlc data now s' = Ret ([], s') /\ ctl_mo s' p <> ctl_mo s p.
Proof. intros E pre s type new actual s' p id dlc data now HE. exact (moved E HE pre s type new actual s' p id dlc data now). Qed.
Print Assumptions C84_old_number_partial.

Definition told (nr new : N) : op := sysmsg nr [32; 0; new; 0; 0; 30; 116; 222].
(** Refuted without the bound on the numbers: the master tells mod2 the number 200 (which fails half-way, since the
    identifier of its control messages would have 12 bits) and then mod1 the number 30; from then on every control
    message to mod1 is handed over twice. *)
Definition doubled : list op := add2 ++ [told 20 200; told 10 30].
Lemma twice_gen (s : node) : is_ctl s 9 = true -> k_actrl (n_cfg s) = [9; 9; 0; 0; 0; 0; 0; 0]%nat -> frame_rx E0 9 (ctl_rx_id 30) 8 [1;2;3;4;5;6;7;8] 0 s = Ret (tt, s) ->
  main_rx E0 false 9 (ctl_rx_id 30) 8 [1;2;3;4;5;6;7;8] 0 s = Ret ([HCtl 30 [1;2;3;4;5;6;7;8]; HCtl 30 [1;2;3;4;5;6;7;8]], s).
Proof. intros H1 H2 H3. rewrite main_rx_eq by lia. rewrite H3. unfold handed_out. rewrite H1, H2. reflexivity. Qed.
Theorem C84_twice_refuted : exists s, reached E0 doubled s /\ m_nr (modat s 0) = 30 /\ passes s 9 (ctl_rx_id 30) /\
  main_rx E0 false 9 (ctl_rx_id 30) 8 [1;2;3;4;5;6;7;8] 0 s = Ret ([HCtl 30 [1;2;3;4;5;6;7;8]; HCtl 30 [1;2;3;4;5;6;7;8]], s).
Proof.
  exists (after doubled). assert (reached E0 doubled (after doubled)) as R by ex. split; [exact R|]. split; [vm_compute; reflexivity|]. split; [vm_compute; reflexivity|].
  assert (is_ctl (after doubled) 9 = true) as C by (vm_compute; reflexivity). apply twice_gen; [exact C|vm_compute; reflexivity|]. apply (frame_rx_ctl E0 E0_ok doubled); assumption.
Qed.
Print Assumptions C84_twice_refuted.
(** Refuted for additions that failed: with no message object left a module is added (the error is reported, but the
    module stays in the table), and the master tells it another number.  This gives the object of the process requests to
    the process data of the module: its frames are answered like process requests, and process requests are not heard. *)
Definition hijacked : list op := add_many ++ [OpAdd (desc 80 1 1) 30 [0]%nat [2]%nat; told 30 50].
Theorem C84_request_by_data_refuted : let s := after hijacked in let f := OpFrame MO_PROCESS (data_rx_id 50 0) 8 [1;2;3;4;5;6;7;8] 5 in
  reached E0 hijacked s /\ passes s MO_PROCESS (data_rx_id 50 0) /\ (forall mo, ~ passes s mo ID_PROCESS) /\
  step E0 f s = Ret (tt, after (hijacked ++ [f])) /\
  delta hijacked [f] = EvFirstReq None :: map (fun nr => EvTx (1020 + 4 * nr) 8 [1;1;1;1;1;1;1;1] true) [10; 11; 12; 13; 14] ++
    [EvTx 1136 8 [0;0;0;0;0;0;0;0] true; EvTx 1220 8 [2;2;2;2;2;2;2;2] true; EvTx 39 8 [3;117;0;0;35;0;4;117] true].
Proof.
  cbn zeta. split; [ex|]. split; [vm_compute; reflexivity|]. split; [|ex]. intro mo. unfold passes.
  assert (h_filt (n_hw (after hijacked)) = h_filt (n_hw (after hijacked))) as Q by reflexivity. revert Q. generalize (h_filt (n_hw (after hijacked))) at 1 3. vm_compute h_filt at 1. intros l ->.
  do 32 (destruct mo as [|mo]; [vm_compute; intro; contradiction || discriminate|]). destruct mo; vm_compute; auto.
Qed.
Print Assumptions C84_request_by_data_refuted.

Lemma tunnel_gen (s : node) : owner s 6 = None -> is_ctl s 6 = false -> main_rx E0 false 6 1538 3 [1;2;3;4;5;6;7;8] 0 s = Ret ([HTunnel 3 [1;2;3;4;5;6;7;8]], s).
Proof.
  intros H1 H2. assert (6 <> MO_PROCESS)%nat as H3 by discriminate. pose proof (C34_unregistered E0 6 1538 3 [1;2;3;4;5;6;7;8] 0 s H1 H3 eq_refl) as H. cbn [step] in H.
  rewrite main_rx_eq by lia. rewrite H. unfold handed_out. rewrite H2. reflexivity.
Qed.
Lemma small_nil : small_history E0 [] (after []).
Proof. unfold after. cbn [run]. unfold ret. apply sh_booted, boot0_ok. Qed.
Lemma small_after pre o : fine (pre ++ [o]) = true -> small_history E0 pre (after pre) -> small_number E0 (after pre) o -> small_history E0 (pre ++ [o]) (after (pre ++ [o])).
Proof. intros F H S. eapply sh_step; [exact H|exact S|]. apply after_step, F. Qed.
Lemma small_add s d nr rxs txs i : next_pos s = Some i -> given_nr s i nr <=? 128 = true -> small_number E0 s (OpAdd d nr rxs txs).
Proof. intros H G j Hj. rewrite H in Hj. injection Hj as <-. apply N.leb_le, G. Qed.
Lemma small_add2 : small_history E0 add2 (after add2).
Proof.
  apply (small_after [nth 0 add2 (OpBaud 0)] (nth 1 add2 (OpBaud 0))); [vm_compute; reflexivity| |].
  - apply (small_after [] (nth 0 add2 (OpBaud 0))); [vm_compute; reflexivity|exact small_nil|]. apply small_add with (i := 0%nat); vm_compute; reflexivity.
  - apply small_add with (i := 1%nat); vm_compute; reflexivity.
Qed.
Lemma complete_add2 : complete E0 (after add2) 1.
Proof.
  split; [vm_compute; lia|]. split; [|intros _; split; vm_compute; reflexivity].
  assert (m_nrx (modat (after add2) 1) = 2%nat) as -> by (vm_compute; reflexivity). intros i Hi.
  destruct i as [|[|i]]; [| |lia]; (split; [|split; vm_compute; reflexivity]); unfold registered.
  - assert (h_rxtab (n_hw (after add2)) = [(1, 0); (5, 1); (7, 1)]%nat) as -> by (vm_compute; reflexivity). assert (rx_mo (after add2) 1 0 = 5%nat) as -> by (vm_compute; reflexivity). cbn. auto.
  - assert (h_rxtab (n_hw (after add2)) = [(1, 0); (5, 1); (7, 1)]%nat) as -> by (vm_compute; reflexivity). assert (rx_mo (after add2) 1 1 = 7%nat) as -> by (vm_compute; reflexivity). cbn. auto.
Qed.
Lemma changed_ret t n a s e s' : (match change_nr_ids E0 t n a s with Ret (x, _) => x =? e | _ => false end) = true -> step E0 (OpSetNr t n a) s = Ret (tt, s') -> change_nr_ids E0 t n a s = Ret (e, s').
Proof. cbn [step]. unfold ignore, bind. destruct (change_nr_ids E0 t n a s) as [[x s1]| |]; try discriminate. intros H1 H2. apply N.eqb_eq in H1. injection H2 as H2. congruence. Qed.
Example C84_case : let s := after add2 in let t := after (add2 ++ [OpSetNr [109; 111; 100; 50; 0] 40 20]) in
  small_history E0 add2 s /\ complete E0 s 1 /\ m_nr (modat s 1) = 20 /\ ctl_mo s 1 = 8%nat /\
  main_rx E0 false 8 (ctl_rx_id 20) 8 [1;2;3;4;5;6;7;8] 0 s = Ret ([HCtl 20 [1;2;3;4;5;6;7;8]], s) /\
  change_nr_ids E0 [109; 111; 100; 50; 0] 40 20 s = Ret (ERR_OK, t) /\ ctl_mo t 1 = 9%nat /\
  main_rx E0 false 8 (ctl_rx_id 20) 8 [1;2;3;4;5;6;7;8] 0 t = Ret ([], t) /\
  main_rx E0 false 6 1538 3 [1;2;3;4;5;6;7;8] 0 s = Ret ([HTunnel 3 [1;2;3;4;5;6;7;8]], s).
Proof.
  cbn zeta. pose proof small_add2 as Sh. pose proof complete_add2 as Cp.
  assert (m_nr (modat (after add2) 1) = 20) as Nr by (vm_compute; reflexivity).
  assert (ctl_mo (after add2) 1 = 8%nat) as Cm by (vm_compute; reflexivity).
  split; [exact Sh|]. split; [exact Cp|]. split; [exact Nr|]. split; [exact Cm|].
  split; [rewrite <- Cm, <- Nr; apply (C84_control_delivered_partial E0 add2); [exact E0_ok|exact Sh|reflexivity|exact Cp|rewrite Nr; lia|lia]|].
  assert (change_nr_ids E0 [109; 111; 100; 50; 0] 40 20 (after add2) = Ret (ERR_OK, after (add2 ++ [OpSetNr [109; 111; 100; 50; 0] 40 20]))) as Ch.
  { apply changed_ret; [vm_compute; reflexivity|]. apply after_step. vm_compute. reflexivity. }
  split; [exact Ch|]. split; [vm_compute; reflexivity|].
  assert (named (after add2) [109; 111; 100; 50; 0] 20 = Some 1%nat) as Nm by (vm_compute; reflexivity).
  split; [rewrite <- Cm; eapply (C84_old_number_partial E0 add2 (after add2) [109; 111; 100; 50; 0] 40 20 _ 1); [exact E0_ok|exact Sh|reflexivity|exact Nm|exact Cp|lia|exact Ch|lia]|].
  assert (owner (after add2) 6 = None) as Ow by (vm_compute; reflexivity). assert (is_ctl (after add2) 6 = false) as Ct by (vm_compute; reflexivity).
  apply tunnel_gen; assumption.
Qed.
