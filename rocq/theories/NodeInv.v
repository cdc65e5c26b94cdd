(** Shape invariant of the node state: all tables keep their sizes. *)
From Verif Require Import Words WordsFacts ErrModel NodeModel NodeLib.

Definition modok (m : modl) : Prop :=
  (m_nrx m <= NOBJ /\ m_ntx m <= NOBJ /\ m_nrx_s m <= NOBJ /\ m_ntx_s m <= NOBJ /\
   length (m_rx m) = NOBJ /\ length (m_tx m) = NOBJ)%nat.
Definition rows {A} (n : nat) (l : list (list A)) : Prop := length l = n /\ Forall (fun r => length r = NOBJ) l.

Definition wf_cfg (E : env) (k : cfgst) : Prop :=
  length (k_tab k) = MAXM E /\ Forall modok (k_tab k) /\ length (k_silent k) = MAXM E /\
  length (k_actrl k) = MAXM E /\ length (k_chg k) = MAXM E.
Definition wf_tx (E : env) (x : txst) : Prop := rows (MAXM E) (x_id x) /\ rows (MAXM E) (x_dlc x).
Definition wf_hw (E : env) (h : hwst) : Prop := length (h_used h) = NMSG E /\ length (h_filt h) = NMSG E.
Definition wf_sync (E : env) (y : syncst) : Prop :=
  rows (MAXM E) (y_cnt y) /\ length (y_tvm y) = MAXM E /\ length (y_img y) = MAXM E /\
  length (y_cbv y) = MAXM E /\ length (y_cbn y) = MAXM E /\ length (y_cbr y) = MAXM E.
Definition WF (E : env) (s : node) : Prop :=
  wf_cfg E (n_cfg s) /\ wf_tx E (n_tx s) /\ wf_hw E (n_hw s) /\ wf_sync E (n_sync s).
Definition WFR (E : env) (s s' : node) : Prop := WF E s -> WF E s'.
#[export] Instance pre_WFR E : Pre (WFR E) := pre_imp (WF E).

Lemma nth_modok tab i : Forall modok tab -> modok (nth i tab modl0).
Proof.
  intro H. destruct (Nat.lt_ge_cases i (length tab)) as [L|L].
  - rewrite Forall_forall in H. apply H, nth_In, L.
  - rewrite nth_overflow by exact L. unfold modok, modl0, slot0, NOBJ. cbn. lia.
Qed.

Lemma rows_set2 {A} n (l : list (list A)) i j v : rows n l -> rows n (set2 l i j v).
Proof.
  intros [L F]. destruct (Nat.lt_ge_cases i (length l)) as [Hi|Hi].
  - split.
    + unfold set2. rewrite set_nth_length. exact L.
    + unfold set2. apply Forall_set_nth; [exact F|]. rewrite set_nth_length.
      rewrite Forall_forall in F. apply F, nth_In, Hi.
  - unfold set2. rewrite set_nth_beyond by exact Hi. split; assumption.
Qed.

Lemma modok_upd_rx i f m : modok m -> modok (upd_rx i f m).
Proof. unfold modok, upd_rx. cbn. rewrite set_nth_length. tauto. Qed.
Lemma modok_upd_tx i f m : modok m -> modok (upd_txo i f m).
Proof. unfold modok, upd_txo. cbn. rewrite set_nth_length. tauto. Qed.

Lemma wf_upd_mod E pos f s : (forall m, modok m -> modok (f m)) -> WFR E s (upd_mod pos f s).
Proof.
  intros Hf [(H1 & H2 & H3) H]. split; [|exact H].
  unfold upd_mod, upd_cfg. cbn. unfold wf_cfg. cbn. rewrite set_nth_length.
  repeat split; try tauto. apply Forall_set_nth; [exact H2|]. apply Hf, nth_modok, H2.
Qed.
Lemma wf_upd_cfg E f s : (wf_cfg E (n_cfg s) -> wf_cfg E (f (n_cfg s))) -> WFR E s (upd_cfg f s).
Proof. intros Hf [H1 H]. split; cbn; auto. Qed.
Lemma wf_upd_tx E f s : (wf_tx E (n_tx s) -> wf_tx E (f (n_tx s))) -> WFR E s (upd_tx f s).
Proof. intros Hf (H1 & H2 & H). split; [exact H1|]. split; [apply Hf, H2 | exact H]. Qed.
Lemma wf_upd_hw E f s : (wf_hw E (n_hw s) -> wf_hw E (f (n_hw s))) -> WFR E s (upd_hw f s).
Proof. intros Hf (H1 & H2 & H3 & H). split; [exact H1|]. split; [exact H2|]. split; [apply Hf, H3 | exact H]. Qed.
Lemma wf_upd_sync E f s : (wf_sync E (n_sync s) -> wf_sync E (f (n_sync s))) -> WFR E s (upd_sync f s).
Proof. intros Hf (H1 & H2 & H3 & H). split; [exact H1|]. split; [exact H2|]. split; [exact H3|]. cbn. auto. Qed.
Lemma wf_upd_sys E f s : WFR E s (upd_sys f s).
Proof. intro H. exact H. Qed.

Ltac wf_leaf :=
  first
  [ now (intro; assumption)
  | apply wf_upd_mod; intros ? ?; first [apply modok_upd_rx; assumption | apply modok_upd_tx; assumption | assumption | idtac]
  | apply wf_upd_tx; unfold wf_tx; cbn; intro; try tauto
  | apply wf_upd_hw; unfold wf_hw; cbn; rewrite ?set_nth_length; try tauto
  | apply wf_upd_sync; unfold wf_sync; cbn; rewrite ?set_nth_length; try tauto
  | apply wf_upd_sys
  | apply wf_upd_cfg; unfold wf_cfg; cbn; rewrite ?set_nth_length; try tauto ].

Section WfAll.
Variable E : env.
Local Ltac go := repeat pres_tac1; try wf_leaf.

Lemma wf_call_rx f can addr dlc : pres (WFR E) (call_rx f can addr dlc).
Proof. apply pres_call_rx; try typeclasses eauto. intros s k H. exact H. Qed.
Lemma wf_sync_off pos : pres (WFR E) (sync_off pos).
Proof.
  unfold sync_off, tx_data_off. repeat (pres_tac1 || simple apply wf_call_rx); try wf_leaf.
  all: unfold modok in *; cbn; try tauto. all: intuition auto with arith.
Qed.
Lemma wf_sync_on pos : pres (WFR E) (sync_on pos).
Proof. unfold sync_on, tx_data_on. go. all: unfold modok in *; cbn; try tauto. Qed.
Lemma wf_set_silent_awake pos st : pres (WFR E) (set_silent_awake E pos st).
Proof. unfold set_silent_awake. repeat (simple apply wf_sync_off || simple apply wf_sync_on || pres_tac1); try wf_leaf. Qed.
Lemma wf_set_active_critical type on : pres (WFR E) (set_active_critical type on).
Proof. unfold set_active_critical. repeat (simple apply wf_sync_off || simple apply wf_sync_on || pres_tac1). Qed.
Lemma wf_define_obj mo id mask dlc rx sv sy : pres (WFR E) (define_obj E mo id mask dlc rx sv sy).
Proof. unfold define_obj, hw_define. go. Qed.
Lemma wf_get_async pos : pres (WFR E) (get_async_ctrl_obj E pos).
Proof. unfold get_async_ctrl_obj, next_free. go. Qed.
Lemma wf_define_shared a b c d : pres (WFR E) (define_shared E a b c d).
Proof. unfold define_shared. repeat (simple apply wf_define_obj || simple apply wf_set_silent_awake || simple apply wf_get_async || pres_tac1). Qed.
Lemma wf_tx_data_cnfg a b c : pres (WFR E) (tx_data_cnfg E a b c).
Proof. unfold tx_data_cnfg. go. split; apply rows_set2; tauto. Qed.
Lemma wf_rx_data_cnfg a b : pres (WFR E) (rx_data_cnfg E a b).
Proof. unfold rx_data_cnfg. go. Qed.
Lemma length_addrs_rx l a : length (set_addrs_rx l a) = length l.
Proof. revert a. induction l as [|x l IH]; intros [|y a]; cbn; f_equal; auto. Qed.
Lemma length_addrs_tx l a : length (set_addrs_tx l a) = length l.
Proof. revert a. induction l as [|x l IH]; intros [|y a]; cbn; f_equal; auto. Qed.
Lemma wf_set_module pos d nr rxs txs : pres (WFR E) (set_module E pos d nr rxs txs).
Proof.
  unfold set_module, rx_slot, next_free. destruct (desc_ok d) eqn:Hd; [|intros s a s' H; discriminate H].
  repeat (simple apply wf_define_shared || simple apply wf_define_obj || simple apply wf_tx_data_cnfg || simple apply wf_rx_data_cnfg || pres_tac1); try wf_leaf.
  - unfold desc_ok in Hd. unfold modok. cbn. rewrite length_addrs_rx, length_addrs_tx.
    apply andb_prop in Hd. destruct Hd as [Hd _]. apply andb_prop in Hd. destruct Hd as [Hd _].
    apply andb_prop in Hd. destruct Hd as [Hd H4]. apply andb_prop in Hd. destruct Hd as [Hd H3].
    apply andb_prop in Hd. destruct Hd as [H1 H2].
    apply Nat.leb_le in H1. apply Nat.leb_le in H2. apply Nat.eqb_eq in H3. apply Nat.eqb_eq in H4.
    tauto.
Qed.
Lemma wf_add_module d nr rxs txs : pres (WFR E) (add_module E d nr rxs txs).
Proof. unfold add_module. repeat (simple apply wf_set_module || pres_tac1); try wf_leaf. Qed.
Lemma wf_change_nr_ids t n a : pres (WFR E) (change_nr_ids E t n a).
Proof.
  unfold change_nr_ids.
  repeat (simple apply wf_define_shared || simple apply wf_define_obj || simple apply wf_tx_data_cnfg || pres_tac1); try wf_leaf.
Qed.
Lemma wf_change_nr p n : pres (WFR E) (change_nr E p n).
Proof. unfold change_nr. repeat (simple apply wf_change_nr_ids || simple apply wf_set_silent_awake || pres_tac1). Qed.
Lemma wf_change_type p t : pres (WFR E) (change_type E p t).
Proof.
  unfold change_type. refine (pres_bind _ _ _ _ _); [pres_tac|intro c]. destruct c as [c|]; [|pres_tac].
  destruct (strn_eq _ _ _); [|pres_tac].
  destruct (desc_ok (c_desc c) && (m_nrx_s (c_desc c) <=? NOBJ)%nat && (m_ntx_s (c_desc c) <=? NOBJ)%nat) eqn:Hd;
    [|intros s a s' H; discriminate H].
  repeat (simple apply wf_tx_data_cnfg || pres_tac1); try wf_leaf.
  unfold desc_ok in Hd. repeat match goal with H : _ && _ = true |- _ => apply andb_prop in H; destruct H end.
  repeat match goal with H : (_ <=? _)%nat = true |- _ => apply Nat.leb_le in H end.
  unfold modok, retype. cbn [m_nrx m_nrx_s m_ntx m_ntx_s m_rx m_tx]. rewrite !map_length, !seq_length. tauto.
Qed.
Lemma wf_change_type_add t d rxs txs cb : pres (WFR E) (change_type_add t d rxs txs cb).
Proof. unfold change_type_add. go. Qed.
Lemma wf_set_baudrate r : pres (WFR E) (set_baudrate r).
Proof.
  unfold set_baudrate. refine (pres_bind _ _ _ _ _); [go|intro tab]. generalize ERR_OK.
  induction tab as [|x tab IH]; intro e; cbn [set_baudrate_loop]; [go|].
  destruct (r =? x); [|apply IH]. unfold hw_set_baudrate. repeat (simple apply IH || pres_tac1); try wf_leaf.
Qed.
Lemma wf_set_node_mode m : pres (WFR E) (set_node_mode m).
Proof. unfold set_node_mode. go. Qed.
Lemma wf_simple_log s e : WFR E s (set_n_log s (n_log s ++ [e])).
Proof. intro H. exact H. Qed.
Lemma wf_simple_orc s o : WFR E s (set_n_orc s o).
Proof. intro H. exact H. Qed.
Lemma wf_simple_err s o : WFR E s (set_n_err s o).
Proof. intro H. exact H. Qed.
Lemma wf_status_ackn p : pres (WFR E) (status_ackn E p).
Proof. unfold status_ackn, sys_tx, send_msg. go. Qed.
Lemma wf_version_ackn p : pres (WFR E) (version_ackn E p).
Proof. unfold version_ackn, sys_tx, send_msg. go. Qed.
Lemma wf_drain n : pres (WFR E) (drain_errors n).
Proof. apply pres_drain; try typeclasses eauto; auto using wf_simple_log, wf_simple_orc, wf_simple_err. Qed.
Lemma wf_set_cycle_time t : pres (WFR E) (set_cycle_time E t).
Proof. unfold set_cycle_time. go. Qed.
Lemma wf_sys_silent_awake src nr st : pres (WFR E) (sys_silent_awake E src nr st).
Proof. unfold sys_silent_awake. repeat (simple apply wf_set_silent_awake || pres_tac1). Qed.
Lemma wf_sys_cmd bc pos nr src : pres (WFR E) (sys_cmd E bc pos nr src).
Proof.
  unfold sys_cmd. 
  repeat (simple apply wf_set_node_mode || simple apply wf_set_baudrate || simple apply wf_version_ackn || simple apply wf_set_cycle_time
    || simple apply wf_change_nr || simple apply wf_sys_silent_awake || simple apply wf_change_type || simple apply wf_status_ackn
    || simple apply wf_drain || pres_tac1); try wf_leaf.
Qed.
Lemma wf_on_sys id dlc data : pres (WFR E) (on_sys E id dlc data).
Proof. unfold on_sys, sys_msg_rx. repeat (simple apply wf_sys_cmd || pres_tac1); try wf_leaf. Qed.
Lemma wf_on_data mo id dlc data : pres (WFR E) (on_data E mo id dlc data).
Proof.
  unfold on_data, rx_data_main. repeat (simple apply wf_call_rx || pres_tac1); try wf_leaf.
  intros (H & H'). split; [apply rows_set2, H | exact H'].
Qed.
Lemma rows_clear n tab l : rows n l -> rows n (clear_rows tab l).
Proof.
  intros [L F]. split.
  - rewrite <- L. clear. revert tab. induction l as [|r l IH]; intros [|m tab]; cbn; auto.
  - clear L. revert tab. induction F as [|r l Hr F IH]; intros [|m tab]; cbn; auto.
    constructor; auto. unfold clear_row. rewrite app_length, repeat_length, skipn_length, Hr. lia.
Qed.
Lemma wf_check_image now : pres (WFR E) (check_image now).
Proof.
  unfold check_image.
  assert (forall n first, pres (WFR E) (check_modules n first now)) as Hc.
  { induction n as [|n IH]; intro first; cbn [check_modules]; [go|].
    unfold check_module. repeat (simple apply IH || pres_tac1); try wf_leaf. }
  unfold clear_image. repeat (simple apply Hc || pres_tac1); try wf_leaf.
  intros (H & H'). split; [apply rows_clear, H | exact H'].
Qed.
Lemma wf_on_process dlc now : pres (WFR E) (on_process E dlc now).
Proof.
  unfold on_process, process_request_rx, rx_process_main, send_process_data, send_one_error, send_error, sys_tx, send_msg.
  repeat (simple apply wf_check_image || simple apply pres_send_loop || pres_tac1); try wf_leaf; try typeclasses eauto.
  all: intros; try wf_leaf.
Qed.
Lemma wf_frame_rx mo id dlc data now : pres (WFR E) (frame_rx E mo id dlc data now).
Proof. unfold frame_rx. repeat (simple apply wf_on_data || simple apply wf_on_process || simple apply wf_on_sys || pres_tac1). Qed.
Lemma wf_step o : pres (WFR E) (step E o).
Proof.
  destruct o; cbn [step]; unfold ignore, set_silent_awake_type_nr, set_image_cb, trigger_period, get_period;
  repeat (simple apply wf_frame_rx || simple apply wf_add_module || simple apply wf_set_silent_awake || simple apply wf_set_active_critical || simple apply wf_change_nr_ids
   || simple apply wf_change_type_add || simple apply wf_set_cycle_time || simple apply wf_set_node_mode || simple apply wf_set_baudrate || pres_tac1);
  try wf_leaf.
  - destruct k; cbn; rewrite ?set_nth_length; tauto.
  - match goal with |- context [if ?c then _ else _] => destruct c end; tauto.
Qed.
Lemma pres_run (R : node -> node -> Prop) `{Pre R} : (forall o, pres R (step E o)) -> forall ops, pres R (run E ops).
Proof. intros Hs ops. induction ops as [|o r IH]; cbn [run]; [pres_tac|]. refine (pres_bind _ _ _ _ _); auto. Qed.
Lemma wf_run ops : pres (WFR E) (run E ops).
Proof. apply pres_run; [typeclasses eauto | apply wf_step]. Qed.

(** ** the start state *)
Lemma wf_static mem st orc : WF E (static_node E mem st orc).
Proof.
  unfold WF, wf_cfg, wf_tx, wf_hw, wf_sync, rows, static_node, static_cfg, static_tx, static_hw, static_sync, zeros2. cbn.
  rewrite ?map_length, ?seq_length, ?repeat_length. repeat split; auto.
  - apply Forall_forall. intros m Hm. apply in_map_iff in Hm. destruct Hm as (i & <- & _). unfold modok, slot0, NOBJ. cbn. lia.
  - apply Forall_forall. intros r Hr. apply repeat_spec in Hr. subst. reflexivity.
  - apply Forall_forall. intros r Hr. apply repeat_spec in Hr. subst. reflexivity.
  - apply Forall_forall. intros r Hr. apply repeat_spec in Hr. subst. reflexivity.
Qed.
Lemma wf_can_init rate : pres (WFR E) (can_init E rate).
Proof.
  unfold can_init, config_init, msg_objs_init, sys_init, sync_init.
  repeat (simple apply wf_define_obj || pres_tac1); try wf_leaf.
  - rewrite map_length. intros (H1 & H2 & H). repeat split; try tauto.
    apply Forall_forall. intros m Hm. apply in_map_iff in Hm. destruct Hm as (m0 & <- & H0).
    rewrite Forall_forall in H2. apply H2 in H0. exact H0.
  - rewrite !repeat_length. tauto.
  - rewrite !repeat_length. tauto.
Qed.
End WfAll.
