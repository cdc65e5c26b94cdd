(** Reasoning principles for the state monad of NodeModel. *)
From Verif Require Import Words WordsFacts ErrModel NodeModel.

Lemma bind_inv {A B} (m : M A) (k : A -> M B) s r :
  bind m k s = Ret r -> exists a s1, m s = Ret (a, s1) /\ k a s1 = Ret r.
Proof. unfold bind. destruct (m s) as [[a s1]| |]; intro H; try discriminate. eauto. Qed.

Lemma bind_run {A B} (m : M A) (k : A -> M B) s a s1 :
  m s = Ret (a, s1) -> bind m k s = k a s1.
Proof. unfold bind. intros ->. reflexivity. Qed.

Lemma bind_assoc {A B C} (m : M A) (k : A -> M B) (h : B -> M C) s :
  bind (bind m k) h s = bind m (fun a => bind (k a) h) s.
Proof. unfold bind. destruct (m s) as [[a s1]| |]; reflexivity. Qed.

Lemma ret_inv {A} (x : A) s a s' : ret x s = Ret (a, s') -> a = x /\ s' = s.
Proof. intro H. injection H as <- <-. auto. Qed.
Lemma gets_inv {A} (f : node -> A) s a s' : gets f s = Ret (a, s') -> a = f s /\ s' = s.
Proof. intro H. injection H as <- <-. auto. Qed.
Lemma modify_inv f s a s' : modify f s = Ret (a, s') -> s' = f s.
Proof. intro H. injection H as <- <-. auto. Qed.
Lemma guard_inv c s a s' : guard c s = Ret (a, s') -> c = true /\ s' = s.
Proof. destruct c; intro H; [injection H as <- <-; auto | discriminate]. Qed.

(** decompose a hypothesis  m s = Ret (a, s') *)
Ltac minv1 H :=
  match type of H with
  | bind ?m ?k ?s = Ret _ =>
      let a := fresh "r" in let s1 := fresh "s" in let H1 := fresh H in
      apply bind_inv in H; destruct H as (a & s1 & H1 & H)
  | ret _ _ = Ret _ => apply ret_inv in H; destruct H as [? ?]
  | gets _ _ = Ret _ => apply gets_inv in H; destruct H as [? ?]
  | modify _ _ = Ret _ => apply modify_inv in H
  | guard _ _ = Ret _ => apply guard_inv in H; destruct H as [? ?]
  | emit _ _ = Ret _ => unfold emit in H
  | andthen _ _ _ = Ret _ => unfold andthen in H
  | undef _ = Ret _ => discriminate H
  end.

Tactic Notation "mbind" hyp(H) "as" ident(a) ident(s1) ident(H1) :=
  apply bind_inv in H; destruct H as (a & s1 & H1 & H).

Ltac minv_all :=
  repeat match goal with
  | H : bind _ _ _ = Ret _ |- _ => minv1 H
  | H : ret _ _ = Ret _ |- _ => apply ret_inv in H; destruct H; subst
  | H : gets _ _ = Ret _ |- _ => apply gets_inv in H; destruct H; subst
  | H : modify _ _ = Ret _ |- _ => apply modify_inv in H; subst
  | H : guard _ _ = Ret _ |- _ => apply guard_inv in H; destruct H; subst
  | H : emit _ _ = Ret _ |- _ => unfold emit in H
  | H : andthen _ _ _ = Ret _ |- _ => unfold andthen in H
  | H : undef _ = Ret _ |- _ => discriminate H
  end.

(** ** relations preserved by a computation *)
Class Pre (R : node -> node -> Prop) := { pre_refl : forall s, R s s;
                                          pre_trans : forall a b c, R a b -> R b c -> R a c }.
Definition pres (R : node -> node -> Prop) {A} (m : M A) : Prop :=
  forall s a s', m s = Ret (a, s') -> R s s'.

#[export] Instance pre_keep {B} (f : node -> B) : Pre (fun s s' => f s' = f s).
Proof. split; intros; congruence. Qed.
#[export] Instance pre_imp (I : node -> Prop) : Pre (fun s s' => I s -> I s').
Proof. split; intros; auto. Qed.

Section Pres.
Context (R : node -> node -> Prop) `{Pre R}.
Lemma pres_ret {A} (a : A) : pres R (ret a).
Proof. intros s x s' E. apply ret_inv in E. destruct E; subst. apply pre_refl. Qed.
Lemma pres_gets {A} (f : node -> A) : pres R (gets f).
Proof. intros s x s' E. apply gets_inv in E. destruct E; subst. apply pre_refl. Qed.
Lemma pres_undef {A} : pres R (@undef A).
Proof. intros s x s' E. discriminate. Qed.
Lemma pres_hang {A} : pres R ((fun _ => Hang) : M A).
Proof. intros s x s' E. discriminate. Qed.
Lemma pres_guard c : pres R (guard c).
Proof. intros s x s' E. apply guard_inv in E. destruct E; subst. apply pre_refl. Qed.
Lemma pres_modify f : (forall s, R s (f s)) -> pres R (modify f).
Proof. intros Hf s x s' E. apply modify_inv in E. subst. apply Hf. Qed.
Lemma pres_emit e : (forall s, R s (set_n_log s (n_log s ++ [e]))) -> pres R (emit e).
Proof. intro Hf. apply pres_modify. exact Hf. Qed.
Lemma pres_emit_cb cb e : (forall c s, R s (set_n_log s (n_log s ++ [e c]))) -> pres R (emit_cb cb e).
Proof. intro Hf. destruct cb; cbn [emit_cb]; [apply pres_emit; auto | apply pres_ret]. Qed.
Lemma pres_bind {A B} (m : M A) (k : A -> M B) :
  pres R m -> (forall a, pres R (k a)) -> pres R (bind m k).
Proof.
  intros Hm Hk s b s' E. apply bind_inv in E. destruct E as (a & s1 & E1 & E2).
  eapply pre_trans; [eapply Hm, E1 | eapply Hk, E2].
Qed.
Lemma pres_andthen m1 m2 : pres R m1 -> pres R m2 -> pres R (andthen m1 m2).
Proof. intros H1 H2. apply pres_bind; auto. intro a. destruct (a =? ERR_OK); auto. apply pres_ret. Qed.
Lemma pres_for_err n i f : (forall j, pres R (f j)) -> pres R (for_err n i f).
Proof.
  intro Hf. revert i. induction n as [|n IH]; intro i; cbn [for_err]; [apply pres_ret|].
  apply pres_bind; auto. intro a. destruct (a =? ERR_OK); auto using pres_ret.
Qed.
Lemma pres_for_do n i f : (forall j, pres R (f j)) -> pres R (for_do n i f).
Proof.
  intro Hf. revert i. induction n as [|n IH]; intro i; cbn [for_do]; [apply pres_ret|].
  apply pres_bind; auto.
Qed.
Lemma pres_ask : (forall s o, R s (set_n_orc s o)) -> pres R ask.
Proof.
  intros Ho s b s' E. unfold ask in E. destruct (n_orc s); injection E as <- <-; [apply pre_refl | apply Ho].
Qed.
Lemma pres_report a b c : (forall s e, R s (set_n_err s e)) -> pres R (report a b c).
Proof.
  intros He s u s' E. unfold report in E. destruct (syserr_send _ _ _ _) as [[st x]|]; [|discriminate].
  injection E as <- <-. apply He.
Qed.
Lemma pres_report_if a : (forall s e, R s (set_n_err s e)) -> pres R (report_if a).
Proof.
  intros He. unfold report_if. destruct (a =? ERR_OK); [apply pres_ret|].
  apply pres_bind; [apply pres_gets|]. intro. apply pres_report. exact He.
Qed.
Lemma pres_get_error : (forall s e, R s (set_n_err s e)) -> pres R get_error.
Proof.
  intros He s u s' E. unfold get_error in E. destruct (es_get _) as [[st [x y]]|]; [|discriminate].
  injection E as <- <-. apply He.
Qed.
End Pres.

Ltac pres_tac1 :=
  match goal with
  | |- pres _ (bind _ _) => refine (pres_bind _ _ _ _ _); [|intro]
  | |- pres _ (andthen _ _) => refine (pres_andthen _ _ _ _ _)
  | |- pres _ (ret _) => refine (pres_ret _ _)
  | |- pres _ (gets _) => refine (pres_gets _ _)
  | |- pres _ undef => refine (pres_undef _)
  | |- pres _ (fun _ => Hang) => refine (pres_hang _)
  | |- pres _ (guard _) => refine (pres_guard _ _)
  | |- pres _ (modify _) => refine (pres_modify _ _ _); intro
  | |- pres _ (emit _) => refine (pres_emit _ _ _); intro
  | |- pres _ (emit_cb _ _) => refine (pres_emit_cb _ _ _ _); intros ? ?
  | |- pres _ (for_err _ _ _) => refine (pres_for_err _ _ _ _ _); intro
  | |- pres _ (for_do _ _ _) => refine (pres_for_do _ _ _ _ _); intro
  | |- pres _ ask => refine (pres_ask _ _); intros ? ?
  | |- pres _ (report _ _ _) => refine (pres_report _ _ _ _ _); intros ? ?
  | |- pres _ (report_if _) => refine (pres_report_if _ _ _); intros ? ?
  | |- pres _ get_error => refine (pres_get_error _ _); intros ? ?
  | |- pres _ (if ?c then _ else _) => destruct c
  | |- pres _ (match ?x with _ => _ end) => destruct x
  | |- _ => assumption
  end.
Ltac pres_tac := repeat pres_tac1.

(** the recursive functions, for any relation that tolerates their atomic effects *)
Section PresRec.
Context (E : env) (R : node -> node -> Prop) `{Pre R}.
Hypothesis Rlog : forall s e, R s (set_n_log s (n_log s ++ [e])).
Hypothesis Rorc : forall s o, R s (set_n_orc s o).
Hypothesis Rerr : forall s e, R s (set_n_err s e).

Lemma pres_send_msg id dlc data : pres R (send_msg id dlc data).
Proof. unfold send_msg. pres_tac; auto. Qed.
Lemma pres_send_loop fuel send cur can : pres R (send_loop E fuel send cur can).
Proof.
  revert send cur can. induction fuel as [|f IH]; intros; cbn [send_loop]; [apply pres_hang|].
  unfold send_one, tx_data_main. pres_tac; auto using pres_send_msg.
Qed.
Lemma pres_sys_tx nr data : pres R (sys_tx nr data).
Proof. unfold sys_tx, send_msg. pres_tac; auto using pres_send_msg. Qed.
Lemma pres_send_error e : pres R (send_error e).
Proof. unfold send_error. pres_tac; auto using pres_sys_tx. Qed.
Lemma pres_send_one_error : pres R send_one_error.
Proof. unfold send_one_error. pres_tac; auto using pres_send_error. Qed.
Lemma pres_drain fuel : pres R (drain_errors fuel).
Proof.
  induction fuel as [|f IH]; cbn [drain_errors]; pres_tac; auto using pres_send_one_error.
Qed.
End PresRec.

(** the configuration and system message functions, for a relation that ignores what they change *)
Section PresSys.
Context (E : env) (R : node -> node -> Prop) `{Pre R} (P : event -> Prop).
Hypothesis Rlog : forall s e, P e -> R s (set_n_log s (n_log s ++ [e])).
Hypothesis Rorc : forall s o, R s (set_n_orc s o).
Hypothesis Rerr : forall s e, R s (set_n_err s e).
Hypothesis Rcfg : forall s k, R s (set_n_cfg s k).
Hypothesis Rtx : forall s k, R s (set_n_tx s k).
Hypothesis Rhw : forall s k, R s (set_n_hw s k).
Hypothesis Rmem : forall s k, R s (set_n_mem s k).
Hypothesis Psil : forall c p t n st, P (EvSilent c p t n st).
Hypothesis Ptype : forall c t, P (EvType c t).
Hypothesis Prate : forall r, P (EvRate r).
Hypothesis Ptx : forall id d x ok, P (EvTx id d x ok).
Hypothesis Ptime : forall c t z d, P (EvTime c t z d).
Hypothesis Preset : forall c x, P (EvReset c x).

Local Ltac go := pres_tac; unfold upd_mod, upd_cfg, upd_tx, upd_hw; auto.

Lemma pres_call_rx f can addr dlc : pres R (call_rx f can addr dlc).
Proof. unfold call_rx. destruct f; [|apply pres_undef; typeclasses eauto]. refine (pres_bind _ _ _ _ _); [go|intro mem].
  destruct (nth_error mem addr); [|apply pres_undef; typeclasses eauto]. destruct (r can l dlc). go. Qed.
Lemma pres_sync_off pos : pres R (sync_off pos).
Proof. unfold sync_off, tx_data_off. repeat (pres_tac1 || simple apply pres_call_rx); unfold upd_mod, upd_cfg, upd_tx; auto. Qed.
Lemma pres_sync_on pos : pres R (sync_on pos).
Proof. unfold sync_on, tx_data_on. go. Qed.
Lemma pres_set_silent_awake pos st : pres R (set_silent_awake E pos st).
Proof. unfold set_silent_awake. repeat (simple apply pres_sync_off || simple apply pres_sync_on || pres_tac1); unfold upd_cfg; auto. Qed.
Lemma pres_set_active_critical type on : pres R (set_active_critical type on).
Proof. unfold set_active_critical. repeat (simple apply pres_sync_off || simple apply pres_sync_on || pres_tac1). Qed.
Lemma pres_define_obj mo id mask dlc rx sv sy : pres R (define_obj E mo id mask dlc rx sv sy).
Proof. unfold define_obj, hw_define. go. Qed.
Lemma pres_get_async pos : pres R (get_async_ctrl_obj E pos).
Proof. unfold get_async_ctrl_obj, next_free. go. Qed.
Lemma pres_define_shared a b c d : pres R (define_shared E a b c d).
Proof. unfold define_shared. repeat (simple apply pres_define_obj || simple apply pres_set_silent_awake || simple apply pres_get_async || pres_tac1). Qed.
Lemma pres_tx_data_cnfg a b c : pres R (tx_data_cnfg E a b c).
Proof. unfold tx_data_cnfg. go. Qed.
Lemma pres_rx_data_cnfg a b : pres R (rx_data_cnfg E a b).
Proof. unfold rx_data_cnfg. go. Qed.
Lemma pres_set_module pos d nr rxs txs : pres R (set_module E pos d nr rxs txs).
Proof.
  unfold set_module, rx_slot, next_free.
  repeat (simple apply pres_define_shared || simple apply pres_define_obj || simple apply pres_tx_data_cnfg || simple apply pres_rx_data_cnfg || pres_tac1);
  unfold upd_mod, upd_cfg; auto.
Qed.
Lemma pres_add_module d nr rxs txs : pres R (add_module E d nr rxs txs).
Proof. unfold add_module. repeat (simple apply pres_set_module || pres_tac1); auto. Qed.
Lemma pres_change_nr_ids t n a : pres R (change_nr_ids E t n a).
Proof.
  unfold change_nr_ids.
  repeat (simple apply pres_define_shared || simple apply pres_define_obj || simple apply pres_tx_data_cnfg || pres_tac1);
  unfold upd_mod, upd_cfg; auto.
Qed.
Lemma pres_change_nr p n : pres R (change_nr E p n).
Proof. unfold change_nr. repeat (simple apply pres_change_nr_ids || simple apply pres_set_silent_awake || pres_tac1). Qed.
Lemma pres_change_type p t : pres R (change_type E p t).
Proof. unfold change_type. repeat (simple apply pres_tx_data_cnfg || pres_tac1); unfold upd_mod, upd_cfg, upd_tx; auto. Qed.
Lemma pres_change_type_add t d rxs txs cb : pres R (change_type_add t d rxs txs cb).
Proof. unfold change_type_add. go. Qed.
Lemma pres_set_baudrate r : pres R (set_baudrate r).
Proof.
  unfold set_baudrate. refine (pres_bind _ _ _ _ _); [go|intro tab]. generalize ERR_OK.
  induction tab as [|x tab IH]; intro e; cbn [set_baudrate_loop]; [go|].
  destruct (r =? x); [|apply IH]. unfold hw_set_baudrate. repeat (apply IH || pres_tac1); unfold upd_cfg, upd_hw; auto.
Qed.
Lemma pres_set_node_mode m : pres R (set_node_mode m).
Proof. unfold set_node_mode. go. Qed.
Lemma pres_status_ackn p : pres R (status_ackn E p).
Proof. unfold status_ackn, sys_tx, send_msg. go. Qed.
Lemma pres_version_ackn p : pres R (version_ackn E p).
Proof. unfold version_ackn, sys_tx, send_msg. go. Qed.
Lemma pres_drain' fuel : pres R (drain_errors fuel).
Proof.
  induction fuel as [|f IH]; cbn [drain_errors]; [go|].
  unfold send_one_error, send_error, sys_tx, send_msg. go.
Qed.
Lemma pres_one_error : pres R send_one_error.
Proof. unfold send_one_error, send_error, sys_tx, send_msg. go. Qed.

(** everything a system message can do except the two effects below *)
Hypothesis Rcyc : forall t, pres R (set_cycle_time E t).
Lemma pres_sys_silent_awake src nr st : pres R (sys_silent_awake E src nr st).
Proof. unfold sys_silent_awake. repeat (simple apply pres_set_silent_awake || pres_tac1). Qed.
Lemma pres_sys_cmd_other bc pos nr src : cmd_of (b src 0) <> CStatus -> pres R (sys_cmd E bc pos nr src).
Proof.
  intro Hc. unfold sys_cmd. refine (pres_bind _ _ _ _ _); [go|intro n].
  destruct (cmd_of (b src 0)); [congruence|..].
  all: repeat (simple apply pres_set_node_mode || simple apply pres_set_baudrate || simple apply pres_version_ackn || simple apply Rcyc
    || simple apply pres_change_nr || simple apply pres_sys_silent_awake || simple apply pres_change_type || pres_tac1); auto.
Qed.
Lemma pres_status_rest bc pos n : pres R ((if bc : bool then for_err n 0 (status_ackn E) else status_ackn E pos) >>>
           (c <- gets err_count;; drain_errors c;;; ret ERR_OK)).
Proof. repeat (simple apply pres_status_ackn || simple apply pres_drain' || pres_tac1). Qed.
Hypothesis Rfirst : pres R (z <- gets n_sys ;;
      if z_first z then ret tt
      else modify (upd_sys (fun z => set_z_first z true)) ;;; emit (EvFirstStatus (z_cbs z))).
Lemma pres_set_cycle_time t : pres R (set_cycle_time E t).
Proof. apply Rcyc. Qed.
Lemma pres_sys_cmd bc pos nr src : pres R (sys_cmd E bc pos nr src).
Proof.
  destruct (cmd_of (b src 0)) eqn:Ec; try (apply pres_sys_cmd_other; congruence).
  unfold sys_cmd. refine (pres_bind _ _ _ _ _); [go|intro n]. rewrite Ec.
  intros s a s' Hr. apply bind_inv in Hr. destruct Hr as (z & s1 & Hz & Hr).
  apply bind_inv in Hr. destruct Hr as (u & s2 & Hu & Hr).
  apply pre_trans with (b := s2).
  - apply (Rfirst s u). rewrite (bind_run _ _ _ _ _ Hz). exact Hu.
  - eapply pres_status_rest, Hr.
Qed.
Lemma pres_sys_msg_rx nr dlc src : pres R (sys_msg_rx E nr dlc src).
Proof. unfold sys_msg_rx. repeat (simple apply pres_sys_cmd || pres_tac1). Qed.
Lemma pres_on_sys id dlc data : pres R (on_sys E id dlc data).
Proof. unfold on_sys. repeat (simple apply pres_sys_msg_rx || pres_tac1); auto. Qed.
End PresSys.

(** every operation, for a relation that looks only at the events (and at the reactions to the first requests) *)
Section PresAll.
Context (E : env) (R : node -> node -> Prop) `{Pre R} (P : event -> Prop).
Hypothesis Rlog : forall s e, P e -> R s (set_n_log s (n_log s ++ [e])).
Hypothesis Rorc : forall s o, R s (set_n_orc s o).
Hypothesis Rerr : forall s e, R s (set_n_err s e).
Hypothesis Rcfg : forall s k, R s (set_n_cfg s k).
Hypothesis Rtx : forall s k, R s (set_n_tx s k).
Hypothesis Rhw : forall s k, R s (set_n_hw s k).
Hypothesis Rmem : forall s k, R s (set_n_mem s k).
Hypothesis Psil : forall c p t n st, P (EvSilent c p t n st).
Hypothesis Ptype : forall c t, P (EvType c t).
Hypothesis Prate : forall r, P (EvRate r).
Hypothesis Ptx : forall id d x ok, P (EvTx id d x ok).
Hypothesis Ptime : forall c t z d, P (EvTime c t z d).
Hypothesis Preset : forall c x, P (EvReset c x).
Hypothesis Rcyc : forall t, pres R (set_cycle_time E t).
Hypothesis Rfirst : pres R (z <- gets n_sys ;;
      if z_first z then ret tt
      else modify (upd_sys (fun z => set_z_first z true)) ;;; emit (EvFirstStatus (z_cbs z))).
Hypothesis Rcnt : forall s c, R s (set_n_sync s (set_y_cnt (n_sync s) c)).
Hypothesis Rcb : forall s v n r p f, R s (set_n_sync s (set_y_cbf (set_y_cbp (set_y_cbr (set_y_cbn (set_y_cbv (n_sync s) v) n) r) p) f)).
Hypothesis Rper : forall s p, R s (set_n_sync s (set_y_per (n_sync s) p)).
Hypothesis Rscb : forall s a t r, R s (set_n_sys s (set_z_cbr (set_z_cbt (set_z_cbs (n_sys s) a) t) r)).
Hypothesis Rcheck : forall now, pres R (check_image now).
Hypothesis Rreq : pres R process_request_rx.
Hypothesis Rproc : forall dlc now, pres R (rx_process_main dlc now).

Local Ltac go := pres_tac; unfold upd_mod, upd_cfg, upd_tx, upd_hw; auto.
Lemma pres_send_process : pres R (send_process_data E).
Proof.
  unfold send_process_data. refine (pres_bind _ _ _ _ _); [go|intro reg]. generalize (JUNK E) 0%nat reg SEND_FUEL. clear reg.
  intros can cur reg fuel. revert can cur reg. induction fuel as [|f IH]; intros; cbn [send_loop]; [apply pres_hang|].
  unfold send_one, tx_data_main, send_msg. repeat (simple apply IH || pres_tac1); auto.
Qed.
Lemma pres_on_data mo id dlc data : pres R (on_data E mo id dlc data).
Proof.
  unfold on_data, rx_data_main. repeat ((simple apply (pres_call_rx R); try assumption) || pres_tac1); unfold upd_sync; auto.
Qed.
Lemma pres_on_process dlc now : pres R (on_process E dlc now).
Proof.
  unfold on_process. 
  repeat (simple apply Rreq || simple apply Rcheck || simple apply Rproc || simple apply pres_send_process 
          || (simple apply (pres_one_error R P); try assumption) || pres_tac1).
Qed.
Lemma pres_frame_rx mo id dlc data now : pres R (frame_rx E mo id dlc data now).
Proof.
  unfold frame_rx. repeat (simple apply pres_on_data || simple apply pres_on_process || (simple apply (pres_on_sys E R P); try assumption) || pres_tac1).
Qed.
Lemma pres_other o :
  match o with OpFrame _ _ _ _ _ => False | OpProcess now => pres R (trigger_period E now) | OpPeriod => pres R (get_period E)
             | _ => True end -> pres R (step E o).
Proof.
  intro Ho.
  assert (forall s f, R s (upd_sync (fun y => set_y_cbf y f) s)) as Rcbf.
  { intros. unfold upd_sync. pose proof (Rcb s (y_cbv (n_sync s)) (y_cbn (n_sync s)) (y_cbr (n_sync s)) (y_cbp (n_sync s)) f) as X. exact X. }
  assert (forall s f, R s (upd_sync (fun y => set_y_cbp y f) s)) as Rcbp.
  { intros. unfold upd_sync. pose proof (Rcb s (y_cbv (n_sync s)) (y_cbn (n_sync s)) (y_cbr (n_sync s)) f (y_cbf (n_sync s))) as X. exact X. }
  assert (forall s f, R s (upd_sync (fun y => set_y_cbv y (f y)) s)) as Rcbv.
  { intros. unfold upd_sync. pose proof (Rcb s (f (n_sync s)) (y_cbn (n_sync s)) (y_cbr (n_sync s)) (y_cbp (n_sync s)) (y_cbf (n_sync s))) as X. exact X. }
  assert (forall s f, R s (upd_sync (fun y => set_y_cbn y (f y)) s)) as Rcbn.
  { intros. unfold upd_sync. pose proof (Rcb s (y_cbv (n_sync s)) (f (n_sync s)) (y_cbr (n_sync s)) (y_cbp (n_sync s)) (y_cbf (n_sync s))) as X. exact X. }
  assert (forall s f, R s (upd_sync (fun y => set_y_cbr y (f y)) s)) as Rcbr.
  { intros. unfold upd_sync. pose proof (Rcb s (y_cbv (n_sync s)) (y_cbn (n_sync s)) (f (n_sync s)) (y_cbp (n_sync s)) (y_cbf (n_sync s))) as X. exact X. }
  assert (forall s, R s s) as Rrefl by (intro; apply pre_refl).
  destruct o; cbn [step]; unfold ignore.
  - destruct Ho.
  - refine (pres_bind _ _ _ _ _); [|intro; go]. simple apply (pres_add_module E R P); assumption.
  - refine (pres_bind _ _ _ _ _); [|intro; go]. unfold set_silent_awake_type_nr. refine (pres_bind _ _ _ _ _); [go|intro t].
    destruct (find_type_nr _ _ _ _); [|go]. simple apply (pres_set_silent_awake E R P); assumption.
  - refine (pres_bind _ _ _ _ _); [|intro; go]. simple apply (pres_change_nr_ids E R P); assumption.
  - refine (pres_bind _ _ _ _ _); [|intro; go]. simple apply (pres_change_type_add R); assumption.
  - go.
  - go.
  - unfold set_image_cb. refine (pres_bind _ _ _ _ _); [|intro; go]. refine (pres_bind _ _ _ _ _); [go|intro t].
    destruct (find_type_nr _ _ _ _); [|go]. refine (pres_bind _ _ _ _ _); [|intro; go]. apply pres_modify. intro s.
    destruct k; [apply Rcbv | apply Rcbn | apply Rcbr].
  - go.
  - go.
  - go. unfold upd_sys. apply Rscb.
  - go.
  - exact Ho.
  - refine (pres_bind _ _ _ _ _); [exact Ho|intro; go].
  - refine (pres_bind _ _ _ _ _); [|intro; go]. apply Rcyc.
  - refine (pres_bind _ _ _ _ _); [|intro; go]. unfold set_node_mode. go.
  - refine (pres_bind _ _ _ _ _); [|intro; go]. simple apply (pres_set_baudrate R P); assumption.
  - go.
  - refine (pres_bind _ _ _ _ _); [|intro; go]. simple apply (pres_set_active_critical R); assumption.
Qed.
Lemma pres_step o : pres R (step E o).
Proof.
  destruct o; try (apply pres_other; exact I).
  - cbn [step]. simple apply pres_frame_rx.
  - simple apply pres_other. unfold trigger_period. apply pres_modify. intro s. unfold upd_sync. cbn zeta. destruct (_ <? _); [apply Rper|].
    assert (set_n_sync s (n_sync s) = s) as -> by (destruct s; reflexivity). apply pre_refl.
  - simple apply pres_other. unfold get_period. refine (pres_bind _ _ _ _ _); [go|intro p].
    destruct (_ <? _); [|go]. refine (pres_bind _ _ _ _ _); [|intro; go]. apply pres_modify. intro s. unfold upd_sync. apply Rper.
Qed.
End PresAll.
