(** Preservation of relations that look only at configuration, transmission and hardware: it is enough to look
    at the configuration functions. *)
From Verif Require Import Words WordsFacts ErrModel NodeModel NodeLib NodeInv NodeSpec.

Section Kernel.
Context (E : env) (R : node -> node -> Prop) `{Pre R}.
Hypothesis Rlog : forall s e, R s (set_n_log s e).
Hypothesis Rorc : forall s o, R s (set_n_orc s o).
Hypothesis Rerr : forall s e, R s (set_n_err s e).
Hypothesis Rmem : forall s k, R s (set_n_mem s k).
Hypothesis Rsync : forall s k, (wf_sync E (n_sync s) -> wf_sync E k) -> R s (set_n_sync s k).
Hypothesis Rsys : forall s k, R s (set_n_sys s k).

(** what has to be shown for an operation *)
Definition sys_kernel (data : list byte) : Prop :=
  match cmd_of (b data 0) with
  | CBaud => (forall m, pres R (set_node_mode m)) /\ pres R (set_baudrate (u16 (N.shiftl (b data 1) 8 + b data 2)))
  | CNumber => forall pos, pres R (change_nr E pos (b data 2))
  | CSilent => forall nr, pres R (sys_silent_awake E data nr SILENT)
  | CAwake => forall nr, pres R (sys_silent_awake E data nr AWAKE)
  | CType => forall pos, pres R (change_type E pos (tl data))
  | _ => True
  end.
Definition kernel (o : op) : Prop :=
  match o with
  | OpFrame mo id dlc data now => (mo =? MO_SYS1)%nat || SYS2 E && (mo =? MO_SYS2)%nat = true -> sys_kernel data
  | OpAdd d nr rxs txs => pres R (add_module E d nr rxs txs)
  | OpSilent type nr st => pres R (set_silent_awake_type_nr E type nr st)
  | OpSetNr type new actual => pres R (change_nr_ids E type new actual)
  | OpTypeAdd type d rxs txs cb => pres R (change_type_add type d rxs txs cb)
  | OpVoter v => forall s, R s (upd_cfg (fun k => set_k_voter k v) s)
  | OpSilentCb cb => forall s, R s (upd_cfg (fun k => set_k_silcb k cb) s)
  | OpMode m => pres R (set_node_mode m)
  | OpBaud r => pres R (set_baudrate r)
  | OpTakePart type on => pres R (set_active_critical type on)
  | _ => True
  end.
Ltac wfs := unfold wf_sync; cbn; rewrite ?set_nth_length; try tauto.
Ltac leaf := unfold upd_sync, upd_sys; auto; try (apply Rsync; wfs).
Ltac go := pres_tac; leaf.

Lemma kpres_sys_tx nr data : pres R (sys_tx nr data).
Proof. unfold sys_tx, send_msg. go. Qed.
Lemma kpres_call_rx f can addr dlc : pres R (call_rx f can addr dlc).
Proof. apply pres_call_rx; auto. Qed.
Lemma kpres_drain n : pres R (drain_errors n).
Proof. apply pres_drain; auto. Qed.
Lemma kpres_sys_cmd bc pos nr src : sys_kernel src -> pres R (sys_cmd E bc pos nr src).
Proof.
  unfold sys_kernel, sys_cmd. intro K. refine (pres_bind _ _ _ _ _); [go|intro n]. destruct (cmd_of (b src 0)); try destruct K as [K1 K2];
  unfold status_ackn, version_ackn, set_cycle_time; repeat (simple apply kpres_sys_tx || simple apply kpres_drain || simple apply K || simple apply K1 || simple apply K2 || pres_tac1); leaf.
Qed.
Lemma kpres_on_data mo id dlc data : pres R (on_data E mo id dlc data).
Proof.
  unfold on_data, rx_data_main. repeat (simple apply kpres_call_rx || pres_tac1); leaf.
  intros (H1 & H2). split; [apply rows_set2, H1 | exact H2].
Qed.
Lemma kpres_check now : pres R (check_image now).
Proof.
  assert (forall n i, pres R (check_modules n i now)) as Hc.
  { induction n as [|n IH]; intro i; cbn [check_modules]; unfold check_module; repeat (simple apply IH || pres_tac1); leaf. }
  unfold check_image, clear_image. repeat (simple apply Hc || pres_tac1); leaf.
  intros (H1 & H2). split; [apply rows_clear, H1 | exact H2].
Qed.
Lemma kpres_send_process : pres R (send_process_data E).
Proof. unfold send_process_data. repeat ((simple apply pres_send_loop; auto) || pres_tac1); leaf. Qed.
Lemma kpres_on_process dlc now : pres R (on_process E dlc now).
Proof.
  unfold on_process, process_request_rx, rx_process_main, send_one_error, send_error.
  repeat (simple apply kpres_check || simple apply kpres_send_process || simple apply kpres_sys_tx || pres_tac1); leaf.
Qed.
Lemma kernel_step o : kernel o -> pres R (step E o).
Proof.
  intro K. destruct o; cbn [step kernel] in *; unfold ignore; try (repeat (simple apply K || pres_tac1); leaf; fail).
  - unfold frame_rx. refine (pres_bind _ _ _ _ _); [go|intro sy]. refine (pres_bind _ _ _ _ _); [destruct sy; [simple apply kpres_on_data|go]|intro].
    refine (pres_bind _ _ _ _ _); [destruct (mo =? MO_PROCESS)%nat; [simple apply kpres_on_process|go]|intro].
    destruct ((mo =? MO_SYS1)%nat || SYS2 E && (mo =? MO_SYS2)%nat); [|go]. specialize (K eq_refl).
    unfold on_sys, sys_msg_rx. repeat ((simple apply kpres_sys_cmd; exact K) || pres_tac1); leaf.
  - unfold set_image_cb. go. destruct k; wfs.
  - unfold trigger_period. go. match goal with |- context [if ?c then set_y_per _ _ else _] => destruct c end; tauto.
  - unfold get_period. go.
  - unfold set_cycle_time. go.
Qed.
End Kernel.

(** the same for a property that is preserved from well-formed states *)
Section KernelWf.
Context (E : env) (I : node -> Prop).
Definition keeps {A} (m : M A) : Prop := forall s a s', WF E s -> I s -> m s = Ret (a, s') -> I s'.
Definition KR (s s' : node) : Prop := WF E s -> WF E s' /\ (I s -> I s').
#[export] Instance pre_KR : Pre KR.
Proof. split; [intros s W; split; auto | intros a b c H1 H2 W; destruct (H1 W) as [W1 I1]; destruct (H2 W1) as [W2 I2]; split; auto]. Qed.
Lemma keeps_KR {A} (m : M A) : pres (WFR E) m -> keeps m -> pres KR m.
Proof. intros Hw Hk s a s' H W. split; [eapply Hw; eauto|]. intro Hi. eapply Hk; eauto. Qed.
Lemma KR_keeps {A} (m : M A) : pres KR m -> keeps m.
Proof. intros Hp s a s' W Hi H. apply Hp in H. destruct (H W). auto. Qed.
Hypothesis Ilog : forall s e, I s -> I (set_n_log s e).
Hypothesis Iorc : forall s o, I s -> I (set_n_orc s o).
Hypothesis Ierr : forall s e, I s -> I (set_n_err s e).
Hypothesis Imem : forall s k, I s -> I (set_n_mem s k).
Hypothesis Isync : forall s k, I s -> I (set_n_sync s k).
Hypothesis Isys : forall s k, I s -> I (set_n_sys s k).
Definition sys_keeps (data : list byte) : Prop :=
  match cmd_of (b data 0) with
  | CBaud => (forall m, keeps (set_node_mode m)) /\ keeps (set_baudrate (u16 (N.shiftl (b data 1) 8 + b data 2)))
  | CNumber => forall pos, keeps (change_nr E pos (b data 2))
  | CSilent => forall nr, keeps (sys_silent_awake E data nr SILENT)
  | CAwake => forall nr, keeps (sys_silent_awake E data nr AWAKE)
  | CType => forall pos, keeps (change_type E pos (tl data))
  | _ => True
  end.
Definition op_keeps (o : op) : Prop :=
  match o with
  | OpFrame mo id dlc data now => (mo =? MO_SYS1)%nat || SYS2 E && (mo =? MO_SYS2)%nat = true -> sys_keeps data
  | OpAdd d nr rxs txs => keeps (add_module E d nr rxs txs)
  | OpSilent type nr st => keeps (set_silent_awake_type_nr E type nr st)
  | OpSetNr type new actual => keeps (change_nr_ids E type new actual)
  | OpTypeAdd type d rxs txs cb => keeps (change_type_add type d rxs txs cb)
  | OpVoter v => forall s, I s -> I (upd_cfg (fun k => set_k_voter k v) s)
  | OpSilentCb cb => forall s, I s -> I (upd_cfg (fun k => set_k_silcb k cb) s)
  | OpMode m => keeps (set_node_mode m)
  | OpBaud r => keeps (set_baudrate r)
  | OpTakePart type on => keeps (set_active_critical type on)
  | _ => True
  end.
Lemma keeps_step o : op_keeps o -> keeps (step E o).
Proof.
  intro K. apply KR_keeps. apply (kernel_step E KR).
  - intros s e W. split; [exact W|auto].
  - intros s e W. split; [exact W|auto].
  - intros s e W. split; [exact W|auto].
  - intros s e W. split; [exact W|auto].
  - intros s k Hk (W1 & W2 & W3 & W4). split; [|auto]. repeat split; try apply W1; try apply W2; try apply W3; apply Hk, W4.
  - intros s e W. split; [exact W|auto].
  - destruct o; cbn [op_keeps kernel] in *; auto.
    + intro Hs. specialize (K Hs). unfold sys_keeps, sys_kernel in *. destruct (cmd_of (b data 0)); auto.
      * destruct K as [K1 K2]. split; [intro; apply keeps_KR; [apply wf_set_node_mode|apply K1] | apply keeps_KR; [apply wf_set_baudrate|exact K2]].
      * intro. apply keeps_KR; [apply wf_change_nr|apply K].
      * intro. apply keeps_KR; [apply wf_sys_silent_awake|apply K].
      * intro. apply keeps_KR; [apply wf_sys_silent_awake|apply K].
      * intro. apply keeps_KR; [apply wf_change_type|apply K].
    + apply keeps_KR; [apply wf_add_module|exact K].
    + apply keeps_KR; [|exact K]. unfold set_silent_awake_type_nr. repeat (simple apply wf_set_silent_awake || pres_tac1).
    + apply keeps_KR; [apply wf_change_nr_ids|exact K].
    + apply keeps_KR; [apply wf_change_type_add|exact K].
    + intros s W. split; [exact W|apply K].
    + intros s W. split; [exact W|apply K].
    + apply keeps_KR; [apply wf_set_node_mode|exact K].
    + apply keeps_KR; [apply wf_set_baudrate|exact K].
    + apply keeps_KR; [apply wf_set_active_critical|exact K].
Qed.
End KernelWf.
