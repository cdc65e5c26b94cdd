(** Properties of the asynchronous queues (C35, C36, C37) and of the capture of transmit data (C11). *)
From Verif Require Import Words ErrModel NodeModel LookModel LookSpec AsyncModel AsyncSpec AsyncProofs SnapModel SnapProofs.

(** ** C35: control messages.  Every run of the queue is a run of the bounded first-in first-out list of the specification:
    messages for configured awake modules join it with module number and all eight bytes, others are dropped, and a full
    queue answers with an error and stays as it is. *)
Theorem C35_bounded_fifo : forall L, (0 < L)%nat -> forall ops, Forall cop_ok ops ->
  exists q outs l, runs (crq_step L) (crq_zero L) ops = Some (q, outs) /\ steps (cstep L) [] ops l outs.
Proof. exact crun. Qed.
Print Assumptions C35_bounded_fifo.
(** the messages processed, followed by at most [L] that wait, are the accepted ones in the order of arrival *)
Theorem C35_nothing_lost : forall L ops q outs, (0 < L)%nat -> Forall cop_ok ops -> runs (crq_step L) (crq_zero L) ops = Some (q, outs) ->
  exists acc pend, accepted_msgs ops outs acc /\ acc = taken outs ++ pend /\ (length pend <= L)%nat.
Proof. exact cfifo. Qed.
Print Assumptions C35_nothing_lost.

Definition tab35 : list modl := [set_m_nr modl0 10; set_m_nr modl0 11].
Definition bytes35 (x : N) : list byte := [x; 1; 2; 3; 4; 5; 6; 7].
Definition ops35 : list cop :=
  let put nr x := CPut tab35 [AWAKE; SILENT] nr (bytes35 x) in
  [put 10 1; put 11 2; put 12 3; put 10 4; put 10 5; CTake; put 10 6; CTake; CTake; CTake].
Example C35_case : option_map snd (runs (crq_step 2) (crq_zero 2) ops35) = Some
  [CErr ERR_OK; CErr ERR_OK; CErr ERR_OK; CErr ERR_OK; CErr E_RX_QUEUE_OVERFLOW; CMsg (Some (10, bytes35 1)); CErr ERR_OK;
   CMsg (Some (10, bytes35 4)); CMsg (Some (10, bytes35 6)); CMsg None] /\ Forall cop_ok ops35.
Proof. split; [vm_compute; reflexivity|]. repeat (constructor; [cbn; lia|]). constructor. Qed.

(** ** C36: data messages *)
Theorem C36_bounded_fifo : forall L, (0 < L)%nat -> forall ops, Forall dop_ok ops ->
  exists q outs l, runs (dtq_step L) (dtq_zero L) ops = Some (q, outs) /\ steps (dstep L) [] ops l outs.
Proof. exact drun. Qed.
Print Assumptions C36_bounded_fifo.
(** the frames the controller accepted, followed by the waiting ones, are the frames of the successful calls, each once and
    in order *)
Theorem C36_exactly_once : forall L ops q outs, (0 < L)%nat -> Forall dop_ok ops -> runs (dtq_step L) (dtq_zero L) ops = Some (q, outs) ->
  exists pend, accepted_frames ops outs = sent_frames outs ++ pend /\ (length pend <= L)%nat /\ dq_state q = length pend.
Proof. exact dfifo. Qed.
Print Assumptions C36_exactly_once.

Definition ops36 : list dop :=
  [DPut 5 DSlave 3 [1; 2; 3]; DHandle 9; DPut 5 DSlave 9 (repeat 0 9); DPut 6 DSlave 0 []; DPut 6 DSlave 1 [7]; DHandle 0; DHandle 0; DHandle 0].
Example C36_case : option_map snd (runs (dtq_step 2) (dtq_zero 2) ops36) = Some
  [DErr ERR_OK; DSent 9 (Some (0x613, 3, [1; 2; 3])); DErr E_DATA_TX_DLC; DErr ERR_OK; DErr E_DATA_TX_OVERFLOW; DSent 0 (Some (0x613, 3, [1; 2; 3]));
   DSent 0 (Some (0x617, 0, [])); DSent 0 None] /\ Forall dop_ok ops36.
Proof. split; [vm_compute; reflexivity|]. repeat (constructor; [cbn; repeat split; try lia; discriminate|]). repeat (constructor; [cbn; try exact I; repeat split; try lia; discriminate|]). constructor. Qed.

(** ** C37: preemption.  Refuted: the increment of the fill count is a read and a write; a transmit interrupt between them
    is lost.  In this schedule two messages are accepted, and three frames go to the controller: the last one was never
    queued and carries identifier 0, that of the process request. *)
Theorem C37_preemption_refuted : exists es s obs, Forall cev_ok es /\
  runs (csys_step 4) (CSys (dtq_zero 4) None) es = Some (s, obs) /\ c_task s = None /\
  obs_accepted obs = [(0x613, 1, [170]); (0x613, 1, [187])] /\
  obs_sent obs = [(0x613, 1, [170]); (0x613, 1, [187]); (0, 0, [])].
Proof.
  exists race. destruct race_end as [[s obs]|] eqn:E; [|vm_compute in E; discriminate]. exists s, obs.
  split; [repeat constructor; cbn; lia|]. split; [exact E|].
  vm_compute in E. injection E as <- <-. repeat split.
Qed.
Print Assumptions C37_preemption_refuted.
(** the fill count itself: after the second call it is 2 although only one message is queued *)
Theorem C37_count_refuted : exists es s obs, Forall cev_ok es /\
  runs (csys_step 4) (CSys (dtq_zero 4) None) es = Some (s, obs) /\ c_task s = None /\
  length (obs_accepted obs) = 2%nat /\ length (obs_sent obs) = 1%nat /\ dq_state (c_q s) = 2%nat.
Proof.
  exists (firstn 17 race). destruct (runs (csys_step 4) (CSys (dtq_zero 4) None) (firstn 17 race)) as [[s obs]|] eqn:E; [|vm_compute in E; discriminate]. exists s, obs.
  split; [repeat constructor; cbn; lia|]. split; [reflexivity|].
  vm_compute in E. injection E as <- <-. repeat split.
Qed.
Print Assumptions C37_count_refuted.
(** what holds: if no interrupt hits between the two accesses of the increment, then in every schedule, at every moment, the
    fill count is the number of queued messages and the frames leave exactly once and in order.  Missing: the schedules
    that interrupt the increment, where it is false. *)
Theorem C37_preemption_partial : forall L es, (0 < L)%nat -> Forall cev_ok es -> atomic_inc L (CSys (dtq_zero L) None) es ->
  exists s obs pend, runs (csys_step L) (CSys (dtq_zero L) None) es = Some (s, obs) /\
  obs_accepted obs = obs_sent obs ++ pend /\ dq_state (c_q s) = length pend.
Proof. exact conc_ok. Qed.
Print Assumptions C37_preemption_partial.
(** the sequence of accesses is the function of C36 when nothing interrupts it *)
Theorem C37_uninterrupted_partial : forall L q nr dlc src sl q' e, nth_error (dq_slots q) (dq_write q) = Some sl -> length (d_data sl) = 8%nat ->
  (N.to_nat dlc <= length src)%nat -> dtq_put L q nr DSlave dlc src = Some (q', e) ->
  exists k os, runs (csys_step L) (CSys q None) (VCall nr dlc src :: repeat VAccess k) = Some (CSys q' None, os) /\
  Forall (eq OQuiet) (removelast os) /\ last os OQuiet = (if e =? ERR_OK then OAccepted nr dlc src else ORefused e).
Proof. exact micro_put. Qed.
Print Assumptions C37_uninterrupted_partial.
(** a schedule with interrupts in the middle of a call that meets the hypothesis *)
Definition es37 : list cev := VCall 5 1 [170] :: repeat VAccess 7 ++ [VCall 6 2 [1; 2]; VAccess; VInt 1; VAccess; VInt 0; VAccess; VAccess; VAccess; VAccess; VAccess; VAccess; VInt 0].
Example C37_case : Forall cev_ok es37 /\ atomic_inc 4 (CSys (dtq_zero 4) None) es37 /\
  option_map (fun r => (obs_accepted (snd r), obs_sent (snd r))) (runs (csys_step 4) (CSys (dtq_zero 4) None) es37)
  = Some ([(0x613, 1, [170]); (0x617, 2, [1; 2])], [(0x613, 1, [170]); (0x617, 2, [1; 2])]).
Proof. split; [repeat constructor; cbn; lia|]. split; [vm_compute; repeat split|vm_compute; reflexivity]. Qed.

Example C37_call_case : exists sl q', nth_error (dq_slots (dtq_zero 4)) (dq_write (dtq_zero 4)) = Some sl /\ length (d_data sl) = 8%nat /\
  dtq_put 4 (dtq_zero 4) 6 DSlave 2 [1; 2] = Some (q', ERR_OK).
Proof. eexists. eexists. split; [vm_compute; reflexivity|]. split; vm_compute; reflexivity. Qed.

(** ** C11: the captured data are the contents of the transmit object at one instant of the call, and interrupts are enabled
    again; the call ends after six accesses in every schedule and never leaves an object of eight bytes. *)
Theorem C11_untorn : forall mem tmp es s, (8 <= length mem)%nat -> length tmp = 8%nat -> snap_run (snap_call mem tmp) es = Some s -> s_pc s = SDone ->
  s_irq s = true /\ exists es1 es2 s1, es = es1 ++ es2 /\ snap_run (snap_call mem tmp) es1 = Some s1 /\ s_tmp s = firstn 8 (s_mem s1).
Proof. exact untorn. Qed.
Print Assumptions C11_untorn.
Theorem C11_ends : forall mem tmp es, (8 <= length mem)%nat -> length tmp = 8%nat -> (6 <= copies es)%nat ->
  exists s, snap_run (snap_call mem tmp) es = Some s /\ s_pc s = SDone.
Proof.
  intros mem tmp es HM HT C. destruct (sinv_run mem tmp HM HT es) as (s & R & _). exists s. split; [exact R|].
  apply (ends es _ s R); [exact I|exact C].
Qed.
Print Assumptions C11_ends.
Definition es11 : list sev := [VApp 0 9; VCopy; VApp 0 1; VCopy; VCopy; VApp 7 1; VCopy; VCopy; VCopy; VApp 3 5].
Example C11_case : option_map (fun s => (s_pc s, s_tmp s, s_mem s)) (snap_run (snap_call (repeat 0 8) (repeat 0 8)) es11) =
  Some (SDone, [9; 0; 0; 0; 0; 0; 0; 0], [9; 0; 0; 5; 0; 0; 0; 0]).
Proof. vm_compute. reflexivity. Qed.
