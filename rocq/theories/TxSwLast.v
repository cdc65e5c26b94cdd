(** Switches of single objects stay in force. *)
From Verif Require Import Words WordsFacts Bits ErrModel NodeModel NodeLib NodeInv NodeSpec NodeHw NodeCnt NodeSync NodeImage NodeSilent NodePres NodeSysP NodeTx NodeSend TxSwModel TxSwSpec TxSw.

Section S.
Variable E : env.
Hypothesis HE : env_ok E.
Variable l : list sw.
Variable w : list (nat * nat).
(** the state is one to which the switches were applied *)
Definition J (s : node) : Prop := exists x0, TxI E (set_n_tx s x0) /\ wf_tx E x0 /\ Sw E (set_n_tx s x0) s l /\ wanted s l = w.
Lemma J_same s s' : same_tx s s' -> J s -> J s'.
Proof.
  intros K (x0 & I & Wx & S & Q). pose proof (same_tx_info s s' K) as (K1 & K2 & _ & _). destruct K as (T & Si & Mp).
  exists x0. assert (same_tx (set_n_tx s x0) (set_n_tx s' x0)) as K' by (repeat split; assumption).
  split; [eapply TxI_same; eauto|]. split; [exact Wx|]. split.
  - destruct S as [B1 B2 B3]. destruct B1 as (_ & X1 & X2 & X3). split.
    + split; [destruct s'; reflexivity|]. cbn [set_n_tx n_tx] in *. rewrite T. auto.
    + intros p o Lp Lo. rewrite T, B2 by assumption. change (ntx (set_n_tx s' x0) p) with (ntx s' p). change (awake (set_n_tx s' x0) p) with (awake s' p). rewrite K1, K2. reflexivity.
    + intros n Hn. rewrite T. apply B3, Hn.
  - rewrite <- Q. unfold wanted. assert (all_objs s' = all_objs s) as ->.
    { unfold all_objs. rewrite <- (map_length txinfo (tab_of s')), Mp, map_length. apply flat_map_ext_in'. intros p _. change (m_ntx (modat s' p)) with (ntx s' p). rewrite K1. reflexivity. }
    apply filter_ext. intros [p o]. cbn [fst snd]. rewrite K2. reflexivity.
Qed.
Lemma J_keeps {A} (m : M A) : pres same_tx m -> keeps E J m.
Proof. intros Hp s a s' _ I H. apply Hp in H. eapply J_same; eauto. Qed.
Lemma quiet_keeps o : quiet E o -> op_keeps E J o.
Proof.
  intro Po. destruct o; cbn [quiet op_keeps] in *; try exact I; try contradiction.
  - intro Hs. destruct (Po Hs) as (P1 & P2 & P3 & P4). unfold sys_keeps. change (b data 0) with (byte_at data 0). unfold cmd_of.
    repeat match goal with |- context [if byte_at data 0 =? ?k then _ else _] => destruct (N.eqb_spec (byte_at data 0) k); [cbv iota|] end; try exact I; try congruence.
    split; [intro|]; apply J_keeps; [apply tx_set_node_mode|apply tx_set_baudrate].
  - apply J_keeps. unfold change_type_add. pres_tac; tx_leaf.
  - intro s. apply J_same. repeat split.
  - intro s. apply J_same. repeat split.
  - apply J_keeps, tx_set_node_mode.
  - apply J_keeps, tx_set_baudrate.
Qed.
Lemma J_step o : quiet E o -> keeps E J (step E o).
Proof. intro Po. apply keeps_step; try (intros s x; apply J_same; repeat split). apply quiet_keeps, Po. Qed.
Lemma J_run ops : forall s s', Forall (quiet E) ops -> WF E s -> HwI E s -> J s -> run E ops s = Ret (tt, s') -> WF E s' /\ HwI E s' /\ J s'.
Proof.
  induction ops as [|o ops IH]; intros s s' F W Hw Hj H; cbn [run] in H; [apply ret_inv in H; destruct H as [_ ->]; auto|].
  inversion F as [|? ? F1 F2]; subst. mbind H as u s1 H1. apply (IH s1); auto.
  - eapply wf_step; eauto.
  - eapply HwR_step; eauto.
  - eapply J_step; eauto.
Qed.
Lemma J_send s s2 : WF E s -> J s -> n_tx s2 = n_tx s -> n_cfg s2 = n_cfg s ->
  send_process_data E s2 = send_all E (map enc w) (JUNK E) s2 /\ Forall (fun x => tx_ok E s2 (fst x) (snd x)) w.
Proof.
  intros W (x0 & I & Wx & S & Q) T C. assert (WF E (set_n_tx s x0)) as W0 by (destruct W as (W1 & W2 & W3 & W4); repeat split; try apply W1; try apply W3; try apply W4; apply Wx).
  assert (wanted (set_n_tx s x0) l = w) as Q' by exact Q. rewrite <- Q'. eapply (Sw_later E HE); eauto.
Qed.
Lemma J_all s s2 : WF E s -> J s -> n_tx s2 = n_tx s -> send_process_data E s2 = send_all E (map enc w) (JUNK E) s2.
Proof.
  intros W (x0 & I & Wx & S & Q) T. assert (WF E (set_n_tx s x0)) as W0 by (destruct W as (W1 & W2 & W3 & W4); repeat split; try apply W1; try apply W3; try apply W4; apply Wx).
  assert (wanted (set_n_tx s x0) l = w) as Q' by exact Q. rewrite <- Q'. eapply (Sw_all E HE); eauto.
Qed.
Lemma J_numbers s : WF E s -> J s -> numbers_ok s.
Proof. intros W (x0 & I & _) i Hi. rewrite (tab_len E s W) in Hi. pose proof (ti_nr E _ I i Hi) as N. change (modat (set_n_tx s x0) i) with (modat s i) in N. lia. Qed.
Lemma J_frames id dlc data now s s' : WF E s -> HwI E s -> J s -> step E (OpFrame MO_PROCESS id dlc data now) s = Ret (tt, s') ->
  exists new st, added s s' new /\ reports (m_nr (modat s 0)) (n_err s) st /\
    sent new = cyc_frames s w (JUNK E) ++ match pending_errors st with [] => [] | e :: _ => error_tx s e end.
Proof.
  intros W Hw Hj H. assert (0 < length (tab_of s))%nat as Hlen by (rewrite (tab_len E s W); apply HE). pose proof (J_numbers s W Hj) as Hn.
  eapply step_request in H; [|reflexivity|exact Hw]. unfold on_process in H.
  mbind H as u1 s2 H1. pose proof (mem_request _ _ _ H1) as M1. apply mute_request in H1.
  mbind H as u2 s3 H2. pose proof (mem_check _ _ _ _ H2) as M2. apply mute_check in H2.
  destruct H1 as (C1 & T1 & E1 & n1 & L1 & S1). destruct H2 as (C2 & T2 & E2 & n2 & L2 & S2).
  mbind H as u3 s4 H3. destruct (J_send s s3 W Hj) as [Q Ok]; try congruence. pose proof H3 as H3'. rewrite Q in H3'.
  destruct (send_all_frames E _ _ _ _ _ Ok H3') as (n3 & L3 & S3). rewrite (cyc_frames_cfg s s3) in S3 by (unfold keep_mem in *; congruence).
  apply send_process_cyc in H3. destruct H3 as (O3 & R3 & _).
  mbind H as u4 s5 H4. apply mute_main in H4. destruct H4 as (C4 & T4 & E4 & n4 & L4 & S4). mbind H as c s6 H0. apply gets_inv in H0. destruct H0 as [-> ->].
  assert (n_cfg s5 = n_cfg s) as C by (destruct O3 as (O3 & _); congruence).
  assert (modat s3 0 = modat s 0) as M by (unfold modat, tab_of; congruence). rewrite M, E2, E1 in R3.
  assert (n_log s5 = n_log s ++ (n1 ++ n2 ++ n3 ++ n4)) as L by (rewrite L4, L3, L2, L1, <- !app_assoc; reflexivity).
  assert (sent (n1 ++ n2 ++ n3 ++ n4) = cyc_frames s w (JUNK E)) as Sn by (rewrite !sent_app, S1, S2, S3, S4, app_nil_r; reflexivity).
  unfold err_count in H. rewrite E4 in H. destruct (Nat.eqb_spec (es_count (n_err s4)) 0) as [Z|Z].
  - rewrite Z in H. change (0 <? 0)%nat with false in H. cbv iota in H. apply ret_inv in H. destruct H as [_ ->].
    exists (n1 ++ n2 ++ n3 ++ n4), (n_err s4). unfold pending_errors. rewrite Z, app_nil_r. auto.
  - assert ((0 <? es_count (n_err s4))%nat = true) as Z1 by (apply Nat.ltb_lt; clear -Z; lia). rewrite Z1 in H. apply send_one_error_inv in H.
    + destruct H as (O5 & st & e & r & G & Er & n5 & L5 & S5). rewrite E4 in G. destruct (es_get_head _ _ _ _ Z G) as (-> & x & -> & l' & P).
      exists ((n1 ++ n2 ++ n3 ++ n4) ++ n5), (n_err s4). unfold added. rewrite L5, L, P, sent_app, Sn. split; [rewrite <- !app_assoc; reflexivity|]. split; [exact R3|].
      f_equal. rewrite S5. change (ERR_OK =? ERR_OK) with true. cbv iota. cbn [flat_map]. rewrite app_nil_r. apply error_tx_cfg, C.
    + unfold tab_of. rewrite C. exact Hlen.
    + intros i Hi. unfold modat, tab_of in *. rewrite C in *. apply Hn, Hi.
Qed.
Lemma J_ends id dlc data now s : WF E s -> J s -> step E (OpFrame MO_PROCESS id dlc data now) s <> Hang.
Proof.
  intros W Hj. cbn [step]. unfold frame_rx. apply ends_at; [discriminate|]. intros sy s0 H0. apply gets_inv in H0. destruct H0 as [-> ->].
  apply ends_at. { destruct (is_sync_mo MO_PROCESS s); [|discriminate]. apply (ltac:(unfold on_data, rx_data_main; repeat (simple apply ends_call_rx || ends1)) : ends (on_data E MO_PROCESS id dlc data)). }
  intros u s2 H1. assert (n_tx s2 = n_tx s) as T2.
  { destruct (is_sync_mo MO_PROCESS s); [|apply ret_inv in H1; destruct H1 as [_ ->]; auto]. apply tx_on_data in H1. apply H1. }
  clear H1. apply ends_at.
  - destruct (MO_PROCESS =? MO_PROCESS)%nat; [|discriminate]. unfold on_process.
    apply ends_at; [unfold process_request_rx; match goal with |- ?m _ <> Hang => apply (ltac:(repeat ends1) : ends m) end|]. intros u2 s3 H2. apply tx_request in H2. destruct H2 as (T3 & _).
    apply ends_at; [apply ends_check|]. intros u3 s4 H3. apply tx_check in H3. destruct H3 as (T4 & _).
    apply ends_at; [rewrite (J_all s s4 W Hj) by congruence; apply ends_send_all|]. intros u4 s5 _.
    match goal with |- ?m _ <> Hang => apply (ltac:(unfold rx_process_main, send_one_error, send_error; repeat (simple apply ends_sys_tx || ends1)) : ends m) end.
  - intros u2 s3 _. destruct (_ || _); [|discriminate]. unfold on_sys, sys_msg_rx. match goal with |- ?m _ <> Hang => apply (ltac:(repeat (simple apply ends_sys_cmd || ends1)) : ends m) end.
Qed.
End S.
Lemma J_start E l s s1 : env_ok E -> WF E s -> TxI E s -> (forall c, In c l -> In (fst c) (all_objs s)) -> tx_switches l s = Ret (tt, s1) -> WF E s1 /\ J E l (wanted s l) s1.
Proof.
  intros HE W I Hl H. pose proof (Sw_ok E HE s s1 l tt W I Hl H) as S. destruct (sw_b E _ _ _ S) as (B & X1 & X2 & X3).
  assert (set_n_tx s1 (n_tx s) = s) as Q by (rewrite B; destruct s; reflexivity). split.
  - rewrite B. destruct W as (W1 & W2 & W3 & W4). repeat split; try apply W1; try apply W3; try apply W4; unfold wf_tx in *; cbn [n_tx set_n_tx] in *; rewrite ?X2, ?X3; apply W2.
  - exists (n_tx s). rewrite Q. split; [exact I|]. split; [apply W|]. split; [exact S|]. rewrite B. reflexivity.
Qed.
Lemma stays_I E pre l ops s s1 s2 : env_ok E -> TxI E s -> reached E pre s ->
  (forall c, In c l -> In (fst c) (all_objs s)) -> tx_switches l s = Ret (tt, s1) -> Forall (quiet E) ops -> run E ops s1 = Ret (tt, s2) ->
  forall id dlc data now, step E (OpFrame MO_PROCESS id dlc data now) s2 <> Hang /\
  forall s', step E (OpFrame MO_PROCESS id dlc data now) s2 = Ret (tt, s') ->
  exists new st, added s2 s' new /\ reports (m_nr (modat s2 0)) (n_err s2) st /\
    sent new = cyc_frames s2 (wanted s l) (JUNK E) ++ match pending_errors st with [] => [] | e :: _ => error_tx s2 e end.
Proof.
  intros HE I R Hl H1 Q H2. pose proof (WF_reached E _ _ R) as W.
  destruct (J_start E l s s1 HE W I Hl H1) as [W1 J1]. assert (HwI E s1) as Hw1.
  { destruct (sw_b E _ _ _ (Sw_ok E HE s s1 l tt W I Hl H1)) as (B & _). rewrite B. exact (HwI_reached E _ _ R). }
  destruct (J_run E l _ ops s1 s2 Q W1 Hw1 J1 H2) as (W2 & Hw2 & J2). intros id dlc data now.
  split; [exact (J_ends E HE l _ id dlc data now s2 W2 J2)|]. intros s' H. exact (J_frames E HE l _ id dlc data now s2 s' W2 Hw2 J2 H).
Qed.
