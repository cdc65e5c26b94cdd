(** Hooks: every event calls the hook registered for it. *)
From Verif Require Import Words WordsFacts Bits ErrModel NodeModel NodeLib NodeInv NodeSpec NodeHw NodeCnt NodeSync NodeImage NodeSilent NodePres NodeSysP NodeTx NodeSend NodeNum NodeRx NodeTxP NodeCritSpec NodeCrit NodeHooksSpec NodeTimeModel.

(** what is registered in a state *)
Definition regs (s : node) : hooks :=
  Hooks (fun p => nth p (y_cbv (n_sync s)) None) (fun p => nth p (y_cbn (n_sync s)) None) (fun p => nth p (y_cbr (n_sync s)) None)
    (y_cbp (n_sync s)) (y_cbf (n_sync s)) (z_cbs (n_sys s)) (z_cbt (n_sys s)) (z_cbr (n_sys s)) (k_silcb (n_cfg s)).
Definition HR (s s' : node) : Prop :=
  regs s' = regs s /\ exists new, n_log s' = n_log s ++ new /\ Forall (right_hook (regs s)) new.
#[local] Instance pre_HR : Pre HR.
Proof.
  split.
  - intro s. split; auto. exists []. rewrite app_nil_r. auto.
  - intros a b c [H1 (l1 & L1 & F1)] [H2 (l2 & L2 & F2)]. split; [congruence|]. exists (l1 ++ l2). rewrite L2, L1, app_assoc. split; auto.
    apply Forall_app. rewrite H1 in F2. auto.
Qed.
Lemma HR_plain s s' : regs s' = regs s -> n_log s' = n_log s -> HR s s'.
Proof. intros H L. split; auto. exists []. rewrite app_nil_r. auto. Qed.
Lemma HR_event s e : right_hook (regs s) e -> HR s (set_n_log s (n_log s ++ [e])).
Proof. intro H. split; [reflexivity|]. exists [e]. split; auto. Qed.
(** a hook read from the state and called at once *)
Lemma HR_call (f : node -> option N) g : (forall s c, f s = Some c -> right_hook (regs s) (g c)) -> pres HR (cb <- gets f ;; emit_cb cb g).
Proof.
  intros G s u s' H. mbind H as cb s0 H0. apply gets_inv in H0. destruct H0 as [-> ->]. unfold emit_cb in H. destruct (f s) as [c|] eqn:Ef.
  - unfold emit in H. apply modify_inv in H. subst s'. apply HR_event, G, Ef.
  - apply ret_inv in H. destruct H as [_ ->]. apply pre_refl.
Qed.

Section Hooks.
Context (E : env).
Ltac leaf := try solve [apply HR_plain; reflexivity | apply HR_event; exact I | assumption].
Ltac go := pres_tac; leaf.

Lemma hk_call_rx f can addr dlc : pres HR (call_rx f can addr dlc).
Proof. unfold call_rx. destruct f; [|apply pres_undef; typeclasses eauto]. refine (pres_bind _ _ _ _ _); [go|intro mem].
  destruct (nth_error mem addr); [|apply pres_undef; typeclasses eauto]. destruct (r can l dlc). go. Qed.
Lemma hk_sync_off pos : pres HR (sync_off pos).
Proof. unfold sync_off, tx_data_off. repeat (pres_tac1 || simple apply hk_call_rx); leaf. Qed.
Lemma hk_sync_on pos : pres HR (sync_on pos).
Proof. unfold sync_on, tx_data_on. go. Qed.
Lemma hk_set_silent_awake pos st : pres HR (set_silent_awake E pos st).
Proof.
  unfold set_silent_awake. destruct (pos <? MAXM E)%nat; [|go]. refine (pres_bind _ _ _ _ _); [go|intros _].
  intros s u s' H. mbind H as cb s0 H0. apply gets_inv in H0. destruct H0 as [-> ->]. mbind H as m s0 H0. apply gets_inv in H0. destruct H0 as [-> ->].
  mbind H as v s1 H1. apply (pre_trans s s1 s').
  - unfold emit_cb in H1. destruct (k_silcb (n_cfg s)) as [c|] eqn:Ec.
    + unfold emit in H1. apply modify_inv in H1. subst s1. apply HR_event. exact Ec.
    + apply ret_inv in H1. destruct H1 as [_ ->]. apply pre_refl.
  - revert s1 u s' H H1. enough (pres HR (if st =? SILENT then sync_off pos ;;; ret ERR_OK else if st =? AWAKE then sync_on pos ;;; ret ERR_OK else ret E_SILENT_STATE)) as K by (intros; eapply K; eauto).
    repeat (simple apply hk_sync_off || simple apply hk_sync_on || pres_tac1); leaf.
Qed.
Lemma hk_set_active_critical type on : pres HR (set_active_critical type on).
Proof. unfold set_active_critical. repeat (simple apply hk_sync_off || simple apply hk_sync_on || pres_tac1); leaf. Qed.
Lemma hk_define_obj mo id mask dlc rx sv sy : pres HR (define_obj E mo id mask dlc rx sv sy).
Proof. unfold define_obj, hw_define. go. Qed.
Lemma hk_get_async pos : pres HR (get_async_ctrl_obj E pos).
Proof. unfold get_async_ctrl_obj, next_free. go. Qed.
Lemma hk_define_shared a b c d : pres HR (define_shared E a b c d).
Proof. unfold define_shared. repeat (simple apply hk_define_obj || simple apply hk_set_silent_awake || simple apply hk_get_async || pres_tac1); leaf. Qed.
Lemma hk_tx_data_cnfg a b c : pres HR (tx_data_cnfg E a b c).
Proof. unfold tx_data_cnfg. go. Qed.
Lemma hk_rx_data_cnfg a b : pres HR (rx_data_cnfg E a b).
Proof. unfold rx_data_cnfg. go. Qed.
Lemma hk_set_module pos d nr rxs txs : pres HR (set_module E pos d nr rxs txs).
Proof.
  unfold set_module, rx_slot, next_free.
  repeat (simple apply hk_define_shared || simple apply hk_define_obj || simple apply hk_tx_data_cnfg || simple apply hk_rx_data_cnfg || pres_tac1); leaf.
Qed.
Lemma hk_add_module d nr rxs txs : pres HR (add_module E d nr rxs txs).
Proof. unfold add_module. repeat (simple apply hk_set_module || pres_tac1); leaf. Qed.
Lemma hk_change_nr_ids t n a : pres HR (change_nr_ids E t n a).
Proof.
  unfold change_nr_ids.
  repeat (simple apply hk_define_shared || simple apply hk_define_obj || simple apply hk_tx_data_cnfg || pres_tac1); leaf.
Qed.
Lemma hk_change_nr p n : pres HR (change_nr E p n).
Proof. unfold change_nr. repeat (simple apply hk_change_nr_ids || simple apply hk_set_silent_awake || pres_tac1); leaf. Qed.
Lemma hk_change_type p t : pres HR (change_type E p t).
Proof. unfold change_type. repeat (simple apply hk_tx_data_cnfg || pres_tac1); leaf. Qed.
Lemma hk_change_type_add t d rxs txs cb : pres HR (change_type_add t d rxs txs cb).
Proof. unfold change_type_add. go. Qed.
Lemma hk_set_baudrate r : pres HR (set_baudrate r).
Proof.
  unfold set_baudrate. refine (pres_bind _ _ _ _ _); [go|intro tab]. generalize ERR_OK.
  induction tab as [|x tab IH]; intro e; cbn [set_baudrate_loop]; [go|].
  destruct (r =? x); [|apply IH]. unfold hw_set_baudrate. repeat (apply IH || pres_tac1); leaf.
Qed.
Lemma hk_set_node_mode m : pres HR (set_node_mode m).
Proof. unfold set_node_mode. go. Qed.
Lemma hk_sys_tx nr data : pres HR (sys_tx nr data).
Proof. unfold sys_tx, send_msg. go. Qed.
Lemma hk_one_error : pres HR send_one_error.
Proof. unfold send_one_error, send_error. repeat (simple apply hk_sys_tx || pres_tac1); leaf. Qed.
Lemma hk_drain fuel : pres HR (drain_errors fuel).
Proof. induction fuel as [|f IH]; cbn [drain_errors]; repeat (simple apply IH || simple apply hk_one_error || pres_tac1); leaf. Qed.
Lemma hk_sys_silent_awake src nr st : pres HR (sys_silent_awake E src nr st).
Proof. unfold sys_silent_awake. repeat (simple apply hk_set_silent_awake || pres_tac1); leaf. Qed.
Lemma hk_sys_call (f : sysst -> option N) g : (forall s c, f (n_sys s) = Some c -> right_hook (regs s) (g c)) ->
  pres HR (z <- gets n_sys ;; emit_cb (f z) g ;;; ret ERR_OK).
Proof.
  intros G s u s' H. mbind H as z s0 H0. apply gets_inv in H0. destruct H0 as [-> ->]. mbind H as v s1 H1. apply ret_inv in H. destruct H as [_ ->].
  apply (HR_call (fun s => f (n_sys s)) g G s v s1). unfold bind, gets. exact H1.
Qed.
Lemma hk_sys_cmd bc pos nr src : pres HR (sys_cmd E bc pos nr src).
Proof.
  unfold sys_cmd. refine (pres_bind _ _ _ _ _); [go|intro n]. destruct (cmd_of (b src 0)).
  1: { intros s u s' H. mbind H as z s0 H0. apply gets_inv in H0. destruct H0 as [-> ->]. mbind H as v s1 H1. apply (pre_trans s s1 s').
    - destruct (z_first (n_sys s)).
      + apply ret_inv in H1. destruct H1 as [_ ->]. apply pre_refl.
      + mbind H1 as w s2 H2. apply modify_inv in H2. unfold emit in H1. apply modify_inv in H1. subst s1 s2. split; [reflexivity|].
        eexists. split; [reflexivity|]. repeat constructor.
    - revert s1 u s' H H1. enough (pres HR ((if bc then for_err n 0 (status_ackn E) else status_ackn E pos) >>> (c <- gets err_count ;; drain_errors c ;;; ret ERR_OK))) as K by (intros; eapply K; eauto).
      unfold status_ackn. repeat (simple apply hk_sys_tx || simple apply hk_drain || pres_tac1); leaf. }
  all: try (apply hk_sys_call; intros s c Hc; exact Hc).
  all: unfold version_ackn, set_cycle_time; repeat (simple apply hk_set_node_mode || simple apply hk_set_baudrate || simple apply hk_sys_tx
    || simple apply hk_change_nr || simple apply hk_sys_silent_awake || simple apply hk_change_type || pres_tac1); leaf.
Qed.
Lemma hk_on_data mo id dlc data : pres HR (on_data E mo id dlc data).
Proof. unfold on_data, rx_data_main. repeat (simple apply hk_call_rx || pres_tac1); leaf. Qed.
Lemma hk_check now : pres HR (check_image now).
Proof.
  assert (forall n i, pres HR (check_modules n i now)) as Hc.
  { induction n as [|n IH]; intro i; cbn [check_modules]; [go|]. refine (pres_bind _ _ _ _ _); [unfold check_module; go|intro v].
    refine (pres_bind _ _ _ _ _); [go|intros _]. intros s u s' H. mbind H as cb s0 H0. apply gets_inv in H0. destruct H0 as [-> ->].
    mbind H as w s1 H1. unfold emit in H1. apply modify_inv in H1. apply (pre_trans s s1 s').
    - subst s1. apply HR_event. cbn [right_hook]. unfold regs. destruct v; reflexivity.
    - revert s1 u s' H H1. enough (pres HR (r <- check_modules n (S i) now ;; ret (v && r))) as K by (intros; eapply K; eauto).
      repeat (simple apply IH || pres_tac1); leaf. }
  unfold check_image. intros s u s' H. mbind H as y s0 H0. apply gets_inv in H0. destruct H0 as [-> ->]. destruct (y_pr_flag (n_sync s)); [|apply ret_inv in H; destruct H as [_ ->]; apply pre_refl].
  mbind H as w s1 H1. apply (pre_trans s s1 s').
  - destruct (1 <? _); [apply ret_inv in H1; destruct H1 as [_ ->]; apply pre_refl|]. destruct (negb _); [apply ret_inv in H1; destruct H1 as [_ ->]; apply pre_refl|].
    mbind H1 as n s2 H2. apply gets_inv in H2. destruct H2 as [-> ->]. mbind H1 as v s2 H2. apply Hc in H2. apply (pre_trans s s2 s1); auto.
    destruct v; [|apply ret_inv in H1; destruct H1 as [_ ->]; apply pre_refl]. mbind H1 as w2 s3 H3. apply modify_inv in H3. unfold emit in H1. apply modify_inv in H1.
    subst s1 s3. split; [reflexivity|]. eexists. split; [reflexivity|]. constructor; [|constructor]. cbn [right_hook].
    destruct H2 as [Er _]. apply (f_equal hk_image) in Er. symmetry. exact Er.
  - revert s1 u s' H H1. enough (pres HR clear_image) as K by (intros; eapply K; eauto). unfold clear_image. go.
Qed.
Lemma hk_request_rx : pres HR process_request_rx.
Proof.
  unfold process_request_rx. intros s u s' H. mbind H as y s0 H0. apply gets_inv in H0. destruct H0 as [-> ->]. mbind H as w s1 H1. apply (pre_trans s s1 s').
  - destruct (y_first (n_sync s)); [apply ret_inv in H1; destruct H1 as [_ ->]; apply pre_refl|].
    mbind H1 as w2 s2 H2. apply modify_inv in H2. unfold emit in H1. apply modify_inv in H1. subst s1 s2. split; [reflexivity|].
    eexists. split; [reflexivity|]. repeat constructor.
  - revert s1 u s' H H1.
    enough (pres HR (n <- gets nmod ;; for_do n 0 (fun i => cb <- gets (fun s => nth i (y_cbr (n_sync s)) None) ;; emit_cb cb (fun c => EvProcReq i c)))) as K by (intros; eapply K; eauto).
    refine (pres_bind _ _ _ _ _); [go|intro n]. refine (pres_for_do _ _ _ _ _). intro j. apply HR_call. intros s0 c Hc. exact Hc.
Qed.
Lemma hk_send_loop fuel : forall send cur can, pres HR (send_loop E fuel send cur can).
Proof.
  induction fuel as [|f IH]; intros; cbn [send_loop]; [apply pres_hang|]. unfold send_one, tx_data_main, send_msg. repeat (simple apply IH || pres_tac1); leaf.
Qed.
Lemma hk_after dlc now : pres HR (check_image now ;;; send_process_data E ;;; rx_process_main dlc now ;;;
  (c <- gets err_count ;; if (0 <? c)%nat then send_one_error else ret tt)).
Proof.
  unfold send_process_data, rx_process_main. repeat (simple apply hk_check || simple apply hk_send_loop || simple apply hk_one_error || pres_tac1); leaf.
Qed.
Lemma hk_on_process dlc now : pres HR (on_process E dlc now).
Proof. unfold on_process. refine (pres_bind _ _ _ _ _); [apply hk_request_rx|intros _]. apply hk_after. Qed.
Lemma hk_on_sys id dlc data : pres HR (on_sys E id dlc data).
Proof. unfold on_sys, sys_msg_rx. repeat (simple apply hk_sys_cmd || pres_tac1); leaf. Qed.
Lemma hk_frame mo id dlc data now : pres HR (frame_rx E mo id dlc data now).
Proof. unfold frame_rx. repeat (simple apply hk_on_data || simple apply hk_on_process || simple apply hk_on_sys || pres_tac1); leaf. Qed.

Definition registers (o : op) : bool :=
  match o with OpImageCb _ _ _ _ | OpProcessCb _ | OpFirstReqCb _ | OpSysCb _ _ _ | OpSilentCb _ => true | _ => false end.
Lemma hk_step o : registers o = false -> pres HR (step E o).
Proof.
  intro R. destruct o; try discriminate R; cbn [step]; unfold ignore, set_silent_awake_type_nr, trigger_period, get_period, set_cycle_time;
  repeat (simple apply hk_frame || simple apply hk_add_module || simple apply hk_set_silent_awake || simple apply hk_change_nr_ids || simple apply hk_change_type_add
    || simple apply hk_set_node_mode || simple apply hk_set_baudrate || simple apply hk_set_active_critical || pres_tac1); leaf.
  apply HR_plain; [|reflexivity]. unfold upd_sync. cbn zeta. destruct (_ <? _); [reflexivity|]. unfold regs. cbn. reflexivity.
Qed.
End Hooks.

(** what is registered agrees with the history *)
Definition agree (h : hooks) (s : node) : Prop :=
  (forall p, hk_valid (regs s) p = hk_valid h p) /\ (forall p, hk_invalid (regs s) p = hk_invalid h p) /\ (forall p, hk_request (regs s) p = hk_request h p) /\
  hk_image (regs s) = hk_image h /\ hk_first (regs s) = hk_first h /\ hk_status (regs s) = hk_status h /\ hk_time (regs s) = hk_time h /\
  hk_reset (regs s) = hk_reset h /\ hk_silent (regs s) = hk_silent h.
Lemma agree_right h s e : agree h s -> right_hook (regs s) e -> right_hook h e.
Proof.
  intros (A1 & A2 & A3 & A4 & A5 & A6 & A7 & A8 & A9) R. destruct e; cbn [right_hook] in *; try congruence; try exact I.
  - destruct valid; [rewrite <- A1 | rewrite <- A2]; exact R.
Qed.
Lemma agree_same h s s' : regs s' = regs s -> agree h s -> agree h s'.
Proof. unfold agree. intros ->. auto. Qed.
Lemma nth_entry (l : list (option N)) p cb q : (p < length l)%nat -> nth q (set_nth l p cb) None = at_entry (fun i => nth i l None) p cb q.
Proof. intro L. unfold at_entry. destruct (Nat.eqb_spec q p) as [->|N]; [apply nth_set_nth_same; exact L | apply nth_set_nth_other; auto]. Qed.
Lemma regs_step E h o s s' : WF E s -> agree h s -> step E o s = Ret (tt, s') -> agree (hooks_after s o h) s' /\
  exists new, n_log s' = n_log s ++ new /\ Forall (right_hook h) new.
Proof.
  intros W A H. destruct (registers o) eqn:R.
  - assert (n_log s' = n_log s /\ agree (hooks_after s o h) s') as [L G].
    { destruct o; try discriminate R; cbn [step hooks_after] in *.
      - apply modify_inv in H. subst s'. split; [reflexivity|]. unfold agree in *. cbn in *. tauto.
      - unfold ignore in H. mbind H as e s0 H0. apply ret_inv in H. destruct H as [_ ->]. unfold set_image_cb in H0.
        mbind H0 as tab s1 H1. apply gets_inv in H1. destruct H1 as [-> ->]. rewrite find_type_nr_named in H0.
        destruct (named s type nr) as [p|] eqn:En; [|apply ret_inv in H0; destruct H0 as [_ ->]; split; auto].
        mbind H0 as w s1 H1. apply ret_inv in H0. destruct H0 as [_ ->]. apply modify_inv in H1. subst s1.
        assert (p < MAXM E)%nat as Lp. { apply named_spec in En. destruct En as (Lp & _). destruct W as (W1 & _). unfold tab_of in Lp. destruct W1. lia. }
        destruct W as (_ & _ & _ & (_ & W4)).
        split; [reflexivity|]. destruct A as (A1 & A2 & A3 & A4). destruct k; unfold agree; cbn in *; repeat (split; [intro q; cbn in *|]);
          try (rewrite nth_entry by (rewrite ?(proj1 W4); tauto || lia); unfold at_entry; destruct (q =? p)%nat; auto); auto.
      - apply modify_inv in H. subst s'. split; [reflexivity|]. unfold agree in *. cbn in *. tauto.
      - apply modify_inv in H. subst s'. split; [reflexivity|]. unfold agree in *. cbn in *. tauto.
      - apply modify_inv in H. subst s'. split; [reflexivity|]. unfold agree in *. cbn in *. tauto. }
    split; auto. exists []. rewrite app_nil_r. auto.
  - apply hk_step in H; auto. destruct H as [Er (new & L & F)]. split.
    + destruct o; try discriminate R; cbn [hooks_after]; eapply agree_same; eauto.
    + exists new. split; auto. eapply Forall_impl; [|exact F]. intros e. apply agree_right. exact A.
Qed.

Lemma hooked_reached E ops s h : hooked E ops s h -> reached E ops s.
Proof.
  induction 1 as [s B|ops s h o s' H R St]; [exists s; split; auto; reflexivity|]. eapply reached_step; eauto.
Qed.
Lemma agree_booted E s : booted E s -> agree no_hooks s.
Proof.
  intros B. destruct (sync_booted _ _ B) as [Y _]. destruct B as (mem & st & orc & rate & H).
  assert (forall l p, nth p (repeat (@None N) l) None = None) as Z. { induction l as [|l IH]; intros [|p]; cbn; auto. }
  assert (z_cbs (n_sys s) = None /\ z_cbt (n_sys s) = None /\ z_cbr (n_sys s) = None /\ k_silcb (n_cfg s) = None) as (Z1 & Z2 & Z3 & Z4).
  { unfold can_init in H.
    assert (forall m : M N, pres (fun s s' => n_sys s' = n_sys s /\ k_silcb (n_cfg s') = k_silcb (n_cfg s)) m -> True) by auto.
    pose (R := fun a b : node => z_cbs (n_sys a) = None /\ z_cbt (n_sys a) = None /\ z_cbr (n_sys a) = None /\ k_silcb (n_cfg a) = None ->
       z_cbs (n_sys b) = None /\ z_cbt (n_sys b) = None /\ z_cbr (n_sys b) = None /\ k_silcb (n_cfg b) = None).
    assert (Pre R) as HP by (split; unfold R; auto).
    assert (R (static_node E mem st orc) s) as K.
    { revert H. match goal with |- ?m _ = _ -> _ => enough (pres R m) as P by (intro H'; eapply P, H') end.
      unfold config_init, msg_objs_init, define_obj, hw_define, sys_init, sync_init. pres_tac; unfold R; cbn; tauto. }
    apply K. cbn. auto. }
  unfold agree, regs. rewrite Y. cbn. repeat (split; [auto|]). auto.
Qed.
Lemma hooked_agree E ops s h : hooked E ops s h -> agree h s.
Proof.
  induction 1 as [s B|ops s h o s' H A St]; [apply (agree_booted E s B)|].
  apply (regs_step E h o s s'); auto. eapply WF_reached, hooked_reached, H.
Qed.
Lemma hooks_right E ops s h o s' new : hooked E ops s h -> step E o s = Ret (tt, s') -> added s s' new -> Forall (right_hook h) new.
Proof.
  intros H St A. destruct (regs_step E h o s s') as [_ (l & L & F)]; auto; [eapply WF_reached, hooked_reached, H | eapply hooked_agree, H|].
  unfold added in A. rewrite A in L. apply app_inv_head in L. subst l. exact F.
Qed.

(** calls of the request hooks: at a request, all of them, in table order; nowhere else *)
Definition QR (s s' : node) : Prop := exists l, n_log s' = n_log s ++ l /\ request_calls l = [].
Lemma request_calls_app a b : request_calls (a ++ b) = request_calls a ++ request_calls b.
Proof. induction a as [|e a IH]; [reflexivity|]. cbn [app]. destruct e; cbn [request_calls]; rewrite ?IH; reflexivity. Qed.
#[local] Instance pre_QR : Pre QR.
Proof.
  split; [intro s; exists []; rewrite app_nil_r; auto|]. intros a b c (l1 & L1 & F1) (l2 & L2 & F2). exists (l1 ++ l2).
  rewrite L2, L1, app_assoc, request_calls_app, F1, F2. auto.
Qed.
Definition no_preq (e : event) : Prop := request_calls [e] = [].
Ltac qleaf := first [exists []; cbn; rewrite app_nil_r; split; reflexivity | eexists [_]; split; [reflexivity | first [reflexivity | assumption]]].
Section Calls.
Context (E : env).
Lemma QR_other o : is_request o = false -> pres QR (step E o).
Proof.
  assert (forall a b c, pres QR (on_sys E a b c)) as Hsys.
  { intros. apply (pres_on_sys E QR no_preq); intros; try reflexivity; try qleaf.
    - unfold set_cycle_time. pres_tac; qleaf.
    - pres_tac; qleaf. }
  intros H1. destruct o as [mo id dlc data now|d nr rxs txs|t n st|t n a|t d rxs txs cb|v|cb|k t n cb|cb|cb|a t r|e p n|now| |t|m|r|a data|t on].
  { cbn [is_request] in H1. cbn [step]. unfold frame_rx. refine (pres_bind _ _ _ _ _); [pres_tac|intro sy]. rewrite H1.
    repeat (simple apply Hsys || pres_tac1). simple apply (pres_on_data E QR); intros; qleaf. }
  all: match goal with |- pres _ (step E ?o) =>
    refine (pres_other E QR no_preq _ _ _ _ _ _ _ _ _ _ _ _ o _); intros; try exact I; try reflexivity; try qleaf end.
  all: unfold set_cycle_time, trigger_period, get_period; pres_tac; try qleaf.
Qed.
Lemma QR_check now : pres QR (check_image now).
Proof.
  assert (forall n i, pres QR (check_modules n i now)) as Hc.
  { induction n as [|n IH]; intro i; cbn [check_modules]; unfold check_module; repeat (simple apply IH || pres_tac1); qleaf. }
  unfold check_image, clear_image. repeat (simple apply Hc || pres_tac1); qleaf.
Qed.
Lemma QR_after dlc now : pres QR (check_image now ;;; send_process_data E ;;; rx_process_main dlc now ;;;
  (c <- gets err_count ;; if (0 <? c)%nat then send_one_error else ret tt)).
Proof.
  unfold rx_process_main.
  repeat (simple apply QR_check || (simple apply (pres_send_process E QR no_preq); intros; try reflexivity; try qleaf)
    || (simple apply (pres_one_error QR no_preq); intros; try reflexivity; try qleaf) || pres_tac1); qleaf.
Qed.
Lemma calls_loop n : forall i s s', for_do n i (fun i => cb <- gets (fun s => nth i (y_cbr (n_sync s)) None) ;; emit_cb cb (fun c => EvProcReq i c)) s = Ret (tt, s') ->
  n_sync s' = n_sync s /\ exists l, n_log s' = n_log s ++ l /\
    request_calls l = flat_map (fun p => match nth p (y_cbr (n_sync s)) None with Some c => [(p, c)] | None => [] end) (seq i n).
Proof.
  induction n as [|n IH]; intros i s s' H; cbn [for_do] in H.
  - apply ret_inv in H. destruct H as [_ ->]. split; auto. exists []. rewrite app_nil_r. auto.
  - mbind H as u s1 H1. mbind H1 as cb s2 H2. apply gets_inv in H2. destruct H2 as [-> ->]. apply IH in H. destruct H as (Y & l & L & F).
    cbn [seq flat_map]. unfold emit_cb in H1. destruct (nth i (y_cbr (n_sync s)) None) as [c|].
    + unfold emit in H1. apply modify_inv in H1. subst s1. cbn in Y, L, F. split; auto. exists (EvProcReq i c :: l). rewrite L, <- app_assoc. split; auto.
      cbn [request_calls app]. rewrite F. reflexivity.
    + apply ret_inv in H1. destruct H1 as [_ ->]. split; auto. exists l. auto.
Qed.
Lemma calls_of_request ops s h o s' new : hooked E ops s h -> step E o s = Ret (tt, s') -> added s s' new ->
  request_calls new = if is_request o then expected_calls h (nmod s) else [].
Proof.
  intros K H A. pose proof (hooked_reached _ _ _ _ K) as R. unfold added in A. destruct (is_request o) eqn:Rq.
  - destruct o; try discriminate. cbn in Rq. apply (step_request E) in H; auto; [|eapply HwI_reached; eauto]. unfold on_process in H. mbind H as u s1 H1. apply QR_after in H. destruct H as (l & L & F).
    destruct u. unfold process_request_rx in H1. mbind H1 as y s2 H2. apply gets_inv in H2. destruct H2 as [-> ->]. mbind H1 as u2 s2 H2.
    mbind H1 as n s3 H3. apply gets_inv in H3. destruct H3 as [-> ->]. apply calls_loop in H1. destruct H1 as (_ & l1 & L1 & F1).
    assert (y_cbr (n_sync s2) = y_cbr (n_sync s) /\ nmod s2 = nmod s /\ exists l0, n_log s2 = n_log s ++ l0 /\ request_calls l0 = []) as (Yr & Nm & l0 & L0 & F0).
    { destruct (y_first (n_sync s)).
      - apply ret_inv in H2. destruct H2 as [_ ->]. repeat split. exists []. rewrite app_nil_r. auto.
      - mbind H2 as w s4 H4. apply modify_inv in H4. unfold emit in H2. apply modify_inv in H2. subst s2 s4. repeat split. eexists. split; reflexivity. }
    rewrite L, L1, L0, <- !app_assoc in A. apply app_inv_head in A. subst new. rewrite !request_calls_app, F0, F, F1, app_nil_r, Yr, Nm. cbn [app].
    unfold expected_calls. apply flat_map_ext. intro p. pose proof (hooked_agree _ _ _ _ K) as (_ & _ & A3 & _). specialize (A3 p). cbn in A3. rewrite A3. reflexivity.
  - apply QR_other in H; auto. destruct H as (l & L & F). rewrite A in L. apply app_inv_head in L. subst l. exact F.
Qed.

(** registering *)
Lemma register_result k type nr cb s : exists e s', set_image_cb k type nr cb s = Ret (e, s') /\
  (e = ERR_OK <-> exists p, named s type nr = Some p) /\ (named s type nr = None -> s' = s).
Proof.
  unfold set_image_cb, bind, gets. rewrite find_type_nr_named. destruct (named s type nr) as [p|].
  - eexists _, _. split; [reflexivity|]. split; [split; eauto|discriminate].
  - exists E_MODULE_NOT_FOUND, s. split; [reflexivity|]. split; [split; [discriminate|intros (? & ?); discriminate]|auto].
Qed.

(** the time function *)
Lemma time_function_spec ops s type old : reached E ops s -> env_ok E ->
  match of_type s type with
  | None => time_function E type old s = (E_TYPE_NOT_FOUND, old)
  | Some p => exists f, time_function E type old s = (ERR_OK, f) /\
      forall later s', run E later s = Ret (tt, s') -> f s' = last_valid p (n_log s') 0
  end.
Proof.
  intros R HE. unfold time_function. rewrite find_type_of. destruct (of_type s type) as [p|] eqn:Et; [|reflexivity].
  assert (p < MAXM E)%nat as Lp.
  { pose proof (WF_reached _ _ _ R) as ((W1 & _) & _). unfold of_type in Et. apply find_some in Et. destruct Et as [Hin _]. apply in_seq in Hin. unfold tab_of in Hin. lia. }
  destruct HE as (M8 & _). replace ((p <? MAXM E)%nat && (p <? 8)%nat) with true by (symmetry; apply andb_true_iff; split; apply Nat.ltb_lt; lia).
  exists (time_of_entry p). split; [reflexivity|]. intros later s' Hr.
  assert (reached E (ops ++ later) s') as R'. { destruct R as (s0 & B & R). exists s0. split; auto. eapply run_app_intro; eauto. }
  apply (TimeI_reached E) in R'. destruct R' as [_ T]. apply T. exact Lp.
Qed.
End Calls.
