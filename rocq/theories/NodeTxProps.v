(** C05-C08, C17, C20: what a node sends, silent modules, module numbers. *)
From Verif Require Import Words ErrModel NodeModel NodeSpec NodeSend NodeTxP NodeNr NodeEx.

(** C05: in every history without changes of module numbers or types, a process request sends the frames of the
    enabled objects (awake modules in table order, their objects in order), each exactly once, and then at most the
    announcement of one pending error. *)
Theorem C05_every_enabled_object_once : forall E pre id dlc data now s s',
  env_ok E -> Forall (plain E) pre -> reached E pre s -> step E (OpFrame MO_PROCESS id dlc data now) s = Ret (tt, s') ->
  exists new st, added s s' new /\ reports (m_nr (modat s 0)) (n_err s) st /\
    sent new = cyc_frames s (enabled s) (JUNK E) ++ match pending_errors st with [] => [] | e :: _ => error_tx s e end.
Proof. intros E pre id dlc data now s s' HE. exact (request_frames E HE pre id dlc data now s s'). Qed.
Print Assumptions C05_every_enabled_object_once.
(** C05: no operation of such a history loops forever. *)
Theorem C05_terminates : forall E pre s o, env_ok E -> Forall (plain E) pre -> reached E pre s -> step E o s <> Hang.
Proof. intros E pre s o HE. exact (ends_step E HE o pre s). Qed.
Print Assumptions C05_terminates.

Definition sleep (k nr : N) : op := OpSilent [109;111;100;k;0] nr SILENT.
Definition wake (k nr : N) : op := OpSilent [109;111;100;k;0] nr AWAKE.
Example C05_case :
  let pre := add2 ++ [sleep 49 10; OpAdd (desc 51 1 1) 30 [3;0;0;0]%nat [7;0;0;0]%nat; wake 49 10; sleep 50 20] in
  Forall (plain E0) pre /\ reached E0 pre (after pre) /\ step E0 (request 0 7) (after pre) = Ret (tt, after (pre ++ [request 0 7])) /\
  enabled (after pre) = [(0, 0); (0, 1); (2, 0)]%nat /\
  sent (delta pre [request 0 7]) = [(1060, 8, [4;4;4;4;4;4;4;4]); (1061, 8, [5;5;5;5;5;5;5;5]); (1140, 8, [7;7;7;7;7;7;7;7])] /\
  sent (delta pre [request 0 7]) = cyc_frames (after pre) (enabled (after pre)) (JUNK E0).
Proof.
  cbn zeta. ex.
Qed.

(** C06, finding: after a change of the number of a module that is not the last one, the next process request never
    ends: whatever the number of loop iterations, the send loop is not finished. *)
Definition renumbered : list op := add2 ++ [sysmsg 10 [32;0;11;0;0;30;116;222]].
Theorem C06_terminates_refuted :
  reached E0 renumbered (after renumbered) /\ map m_nr (firstn 2 (tab_of (after renumbered))) = [11; 20] /\
  step E0 (request 0 0) (after renumbered) = Hang /\
  forall fuel, send_loop E0 fuel (x_reg (n_tx (after renumbered))) 0 (JUNK E0) (after renumbered) = Hang.
Proof.
  split; [simple apply reached_after; vm_compute; reflexivity|]. split; [vm_compute; reflexivity|]. split; [vm_compute; reflexivity|].
  intro fuel. destruct fuel as [|fuel]; [reflexivity|]. replace (x_reg (n_tx (after renumbered))) with 19 by (vm_compute; reflexivity).
  assert (exists c1 s1 c2 s2, send_one E0 0 (JUNK E0) (after renumbered) = Ret (c1, s1) /\ send_one E0 1 c1 s1 = Ret (c2, s2) /\ x_end (n_tx s2) = 1%nat) as (c1 & s1 & c2 & s2 & H1 & H2 & H3).
  { do 4 eexists. split; [vm_compute; reflexivity|]. split; [vm_compute; reflexivity|vm_compute; reflexivity]. }
  rewrite (loop_send _ 19 _ _ _ _ _ eq_refl H1). destruct fuel as [|fuel]; [reflexivity|]. change (N.shiftr 19 1) with 9. rewrite (loop_send _ 9 _ _ _ _ _ eq_refl H2).
  apply loop_stuck; [discriminate|reflexivity|]. rewrite H3. apply le_n.
Qed.
Print Assumptions C06_terminates_refuted.
(** C06, what remains: without changes of numbers or types everything terminates and all enabled objects are sent. *)
Theorem C06_plain_history_partial : forall E pre s, env_ok E -> Forall (plain E) pre -> reached E pre s ->
  (forall o, step E o s <> Hang) /\
  forall id dlc data now s', step E (OpFrame MO_PROCESS id dlc data now) s = Ret (tt, s') ->
  exists new st, added s s' new /\ sent new = cyc_frames s (enabled s) (JUNK E) ++ match pending_errors st with [] => [] | e :: _ => error_tx s e end.
Proof.
  intros E pre s HE F R. split; [intro o; exact (ends_step E HE o pre s F R)|].
  intros id dlc data now s' H. destruct (request_frames E HE pre id dlc data now s s' F R H) as (new & st & A & _ & S). exists new, st. split; assumption.
Qed.
Print Assumptions C06_plain_history_partial.

(** C07: in such histories a silent module sends neither process data nor system messages, whatever happens next. *)
Theorem C07_silent_module_sends_nothing_partial : forall E pre o s s' new p,
  env_ok E -> Forall (plain E) pre -> reached E pre s -> step E o s = Ret (tt, s') -> added s s' new ->
  (p < length (tab_of s))%nat -> awake s p = false ->
  forall f, In f (sent new) ->
  fst (fst f) <> sys_tx_id (m_nr (modat s p)) /\ (forall obj, (obj < 4)%nat -> fst (fst f) <> data_tx_id (m_nr (modat s p)) obj).
Proof. intros E pre o s s' new p HE. exact (silent_quiet E HE pre o s s' new p). Qed.
Print Assumptions C07_silent_module_sends_nothing_partial.
(** C07, finding: with number changes it fails.  Every accepted change takes another message object for asynchronous
    control messages; when none is left the change stops with an error after it has switched the transmission of the
    module's data on, and the silent module transmits. *)
Definition renumber_often : list op :=
  add2 ++ [sleep 50 20] ++ map (fun i => sysmsg (20 + N.of_nat i) [32;0;21 + N.of_nat i;0;0;30;116;222]) (seq 0 23).
Theorem C07_after_number_changes_refuted : exists s s' new f,
  reached E0 renumber_often s /\ awake s 1 = false /\ m_nr (modat s 1) = 43 /\
  step E0 (request 0 0) s = Ret (tt, s') /\ added s s' new /\ In f (sent new) /\ fst (fst f) = data_tx_id 43 0.
Proof.
  exists (after renumber_often), (after (renumber_often ++ [request 0 0])), (delta renumber_often [request 0 0]), (data_tx_id 43 0, 8, [5;5;5;5;5;5;5;5]).
  ex. vm_compute. tauto.
Qed.
Print Assumptions C07_after_number_changes_refuted.

Example C07_case :
  let pre := add2 ++ [sleep 50 20; sysmsg 20 [99;0;0;0;0;0;0;0]] in
  let f := request 0 0 in let g := sysmsg 1 [1;0;0;0;0;0;0;0] in
  Forall (plain E0) pre /\ reached E0 pre (after pre) /\ step E0 f (after pre) = Ret (tt, after (pre ++ [f])) /\ step E0 g (after pre) = Ret (tt, after (pre ++ [g])) /\
  awake (after pre) 1 = false /\ m_nr (modat (after pre) 1) = 20 /\
  map (fun x => fst (fst x)) (sent (delta pre [f])) = [1060; 1061; 39] /\ map (fun x => fst (fst x)) (sent (delta pre [g])) = [39; 39].
Proof. cbn zeta. ex. Qed.

(** C08: switching a module (by type and number) silent or awake has exactly the effects listed in [switched]. *)
Theorem C08_switch : forall E pre type nr p (on : bool) s s',
  env_ok E -> reached E pre s -> named s type nr = Some p ->
  step E (OpSilent type nr (if on then AWAKE else SILENT)) s = Ret (tt, s') -> switched on p s s'.
Proof. intros E pre type nr p on s s' HE. exact (switch_step E HE pre type nr p on s s'). Qed.
Print Assumptions C08_switch.
(** C08: data frames for a silent module do not reach the application's memory. *)
Theorem C08_no_delivery_while_silent : forall E pre s mo id dlc data now s' p,
  env_ok E -> Forall (plain E) pre -> reached E pre s -> owner s mo = Some p -> awake s p = false ->
  (N.to_nat (id mod 4) < m_nrx (modat s p))%nat ->
  step E (OpFrame mo id dlc data now) s = Ret (tt, s') -> n_mem s' = n_mem s.
Proof. intros E pre s mo id dlc data now s' p HE. exact (no_delivery E HE pre s mo id dlc data now s' p). Qed.
Print Assumptions C08_no_delivery_while_silent.
(** C08: a module put to sleep and woken up later, whatever happened in between, is as it was before. *)
Theorem C08_round_trip : forall E pre mid type nr p s0 s1 s2 s3,
  env_ok E -> Forall (plain E) pre -> reached E pre s0 -> hd 0 type <> 0 -> named s0 type nr = Some p ->
  awake s0 p = true -> modat s0 p = awakened (modat s0 p) ->
  step E (OpSilent type nr SILENT) s0 = Ret (tt, s1) -> Forall (plain E) mid -> run E mid s1 = Ret (tt, s2) ->
  step E (OpSilent type nr AWAKE) s2 = Ret (tt, s3) ->
  modat s3 p = modat s0 p /\ awake s3 p = true /\ (forall o, In (p, o) (enabled s3) <-> In (p, o) (enabled s0)) /\
  (forall o, (o < 4)%nat -> cyclic s3 p o = cyclic s0 p o).
Proof. intros E pre mid type nr p s0 s1 s2 s3 HE. exact (round_trip E HE pre mid type nr p s0 s1 s2 s3). Qed.
Print Assumptions C08_round_trip.

Example C08_case :
  let mid := [request 0 1; rx_frame mo_2_1 20 1 [1;2;3;4;5;6;7;8]; OpAdd (desc 51 1 1) 30 [3;0;0;0]%nat [7;0;0;0]%nat; sysmsg 20 [1;0;0;0;0;0;0;0]] in
  let a := add2 ++ [rx_frame mo_2_1 20 1 [9;9;9;9;9;9;9;9]] in let b := a ++ [sleep 50 20] in let c := b ++ mid in let d := c ++ [wake 50 20] in
  Forall (plain E0) a /\ Forall (plain E0) mid /\ reached E0 a (after a) /\ named (after a) [109;111;100;50;0] 20 = Some 1%nat /\ awake (after a) 1 = true /\
  modat (after a) 1 = awakened (modat (after a) 1) /\
  step E0 (sleep 50 20) (after a) = Ret (tt, after b) /\ run E0 mid (after b) = Ret (tt, after c) /\ step E0 (wake 50 20) (after c) = Ret (tt, after d) /\
  owner (after b) mo_2_1 = Some 1%nat /\ awake (after b) 1 = false /\
  map (fun s => nth 2 (n_mem s) []) [after a; after b; after c; after d] = [[9;9;9;9;9;9;9;9]; [0;0;0;0;0;0;0;0]; [0;0;0;0;0;0;0;0]; [0;0;0;0;0;0;0;0]] /\
  map enabled [after a; after b; after c; after d] = [[(0,0);(0,1);(1,0)]; [(0,0);(0,1)]; [(0,0);(0,1);(2,0)]; [(0,0);(0,1);(1,0);(2,0)]]%nat.
Proof.
  cbn zeta. ex.
Qed.

(** C17: a received frame changes the number of a table entry only if it is a change-number message with the number of
    that entry and the serial number of the node, and the validator (if any) accepts; the new number is the requested
    one and no other entry is affected. *)
Theorem C17_number_change_authorised : forall E pre mo id dlc data now s s' q,
  reached E pre s -> step E (OpFrame mo id dlc data now) s = Ret (tt, s') -> m_nr (modat s' q) <> m_nr (modat s q) ->
  sys_mo E mo = true /\ dlc = 8 /\ byte_at data 0 = 32 /\ id_nr id <> 1 /\ id_nr id = m_nr (modat s q) /\ has_serial E data = true /\
  accepts_nr s q (byte_at data 2) /\ m_nr (modat s' q) = byte_at data 2 /\ forall p, p <> q -> m_nr (modat s' p) = m_nr (modat s p).
Proof. exact number_authorised. Qed.
Print Assumptions C17_number_change_authorised.

Example C17_case :
  let v : voter := fun _ new _ => if new =? 11 then 0 else 1 in
  let pre := add2 ++ [OpVoter (Some v)] in
  let f := sysmsg 10 [32;0;11;0;0;30;116;222] in let g := sysmsg 10 [32;0;12;0;0;30;116;222] in let h := sysmsg 10 [32;0;11;0;0;30;116;223] in
  reached E0 pre (after pre) /\ step E0 f (after pre) = Ret (tt, after (pre ++ [f])) /\
  map (fun s => m_nr (modat s 0)) [after pre; after (pre ++ [f]); after (pre ++ [g]); after (pre ++ [h])] = [10; 11; 10; 10] /\
  has_serial E0 [32;0;11;0;0;30;116;222] = true /\ has_serial E0 [32;0;11;0;0;30;116;223] = false.
Proof. cbn zeta. ex. Qed.

(** C20: besides direct messages 32 (change number), 33 and 34 of length 8 and the API call, nothing changes a silent
    state. *)
Theorem C20_nothing_else_changes_it : forall E o s s',
  may_silence E o = false -> step E o s = Ret (tt, s') -> k_silent (n_cfg s') = k_silent (n_cfg s).
Proof. exact silent_unchanged. Qed.
Print Assumptions C20_nothing_else_changes_it.

Example C20_rest_case :
  let pre := add2 ++ [sleep 50 20] in
  may_silence E0 (sysmsg 1 [1;0;0;0;0;0;0;0]) = false /\ step E0 (sysmsg 1 [1;0;0;0;0;0;0;0]) (after pre) = Ret (tt, after (pre ++ [sysmsg 1 [1;0;0;0;0;0;0;0]])) /\
  map (awake (after pre)) [0; 1]%nat = [true; false].
Proof. cbn zeta. ex. Qed.
