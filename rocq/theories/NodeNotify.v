(** Proofs about the messages of the master that configure the cycle time and request a factory reset. *)
From Verif Require Import Words WordsFacts ErrModel NodeModel NodeLib NodeInv NodeSpec NodeHw NodeSync NodeImage NodeSysP NodeNotifySpec.

Section Notify.
Variable E : env.

Lemma heard_cmd pre mo id data now s s' : reached E pre s -> sys_mo E mo = true -> heard s id = true ->
  step E (OpFrame mo id 8 data now) s = Ret (tt, s') ->
  exists bc pos e s1, sys_cmd E bc pos (id_nr id) data s = Ret (e, s1) /\ report_if e s1 = Ret (tt, s').
Proof.
  intros R Hm Hh H. eapply sys_step in H; eauto. unfold heard in Hh. destruct (id_nr id =? 1).
  - destruct (nmod s =? 0)%nat; [discriminate|]. destruct H as (e & s1 & H); eauto 6.
  - destruct (entry_of_nr s (id_nr id)); [|discriminate]. destruct H as (e & s1 & H); eauto 6.
Qed.
Lemma cycle_message pre mo id data now s s' : reached E pre s -> sys_mo E mo = true -> heard s id = true -> byte_at data 0 = 8 ->
  step E (OpFrame mo id 8 data now) s = Ret (tt, s') ->
  s' = set_n_err (set_n_sync s (set_y_cyc (n_sync s) (N.min (byte_at data 2) (PMAX E)))) (n_err s') /\
  (if byte_at data 2 <=? PMAX E then n_err s' = n_err s
   else exists r, syserr_send (n_err s) E_CONFIG_INVALID LVL_INFO (m_nr (modat s 0)) = Some (n_err s', r)).
Proof.
  intros R Hm Hh Hc H. destruct (heard_cmd pre mo id data now s s' R Hm Hh H) as (bc & pos & e & s1 & H1 & H2). clear H.
  unfold sys_cmd in H1. mbind H1 as n0 s0 H0. apply gets_inv in H0. destruct H0 as [-> ->]. change (b data 0) with (byte_at data 0) in H1. rewrite Hc in H1.
  change (cmd_of 8) with CProcess in H1. cbv iota in H1. change (b data 2) with (byte_at data 2) in H1. unfold set_cycle_time in H1.
  destruct (N.leb_spec (byte_at data 2) (PMAX E)) as [L|L].
  - mbind H1 as u s2 H3. apply modify_inv in H3. apply ret_inv in H1. destruct H1 as [-> ->]. subst s2.
    apply report_if_inv in H2. change (ERR_OK =? ERR_OK) with true in H2. cbv iota in H2. subst s'. rewrite N.min_l by exact L. destruct s; split; reflexivity.
  - mbind H1 as u s2 H3. apply modify_inv in H3. apply ret_inv in H1. destruct H1 as [-> ->]. subst s2.
    apply report_if_inv in H2. change (E_CONFIG_INVALID =? ERR_OK) with false in H2. cbv iota in H2. rewrite N.min_r by lia.
    destruct H2 as [H2 [r Hr]]. split; [|exists r; destruct s; exact Hr]. rewrite H2. destruct s; reflexivity.
Qed.
Lemma reset_message pre mo id data now s s' : reached E pre s -> sys_mo E mo = true -> heard s id = true -> byte_at data 0 = 48 ->
  step E (OpFrame mo id 8 data now) s = Ret (tt, s') ->
  s' = set_n_log s (n_log s ++ match z_cbr (n_sys s) with Some c => [EvReset c (byte_at data 1)] | None => [] end).
Proof.
  intros R Hm Hh Hc H. destruct (heard_cmd pre mo id data now s s' R Hm Hh H) as (bc & pos & e & s1 & H1 & H2). clear H.
  unfold sys_cmd in H1. mbind H1 as n0 s0 H0. apply gets_inv in H0. destruct H0 as [-> ->]. change (b data 0) with (byte_at data 0) in H1. rewrite Hc in H1.
  change (cmd_of 48) with CReset in H1. cbv iota in H1. change (b data 1) with (byte_at data 1) in H1.
  mbind H1 as z s0 H0. apply gets_inv in H0. destruct H0 as [-> ->]. mbind H1 as u s2 H3. apply ret_inv in H1. destruct H1 as [-> ->].
  apply report_if_inv in H2. change (ERR_OK =? ERR_OK) with true in H2. cbv iota in H2. subst s'.
  unfold emit_cb in H3. destruct (z_cbr (n_sys s)) as [c|].
  - unfold emit in H3. apply modify_inv in H3. exact H3.
  - apply ret_inv in H3. destruct H3 as [_ ->]. rewrite app_nil_r. destruct s; reflexivity.
Qed.

(** ** what every operation does to the cycle time and to the calls of the reset callback *)
Lemma resets_app a c : resets (a ++ c) = resets a ++ resets c.
Proof. apply filter_app. Qed.
Definition CR (s s' : node) : Prop := y_cyc (n_sync s') = y_cyc (n_sync s) /\ resets (n_log s') = resets (n_log s).
#[local] Instance pre_CR : Pre CR.
Proof. split; [intro; split; reflexivity|]. intros a c d [A1 A2] [B1 B2]. split; congruence. Qed.
Definition other_ev (e : event) : Prop := match e with EvReset _ _ => False | _ => True end.
Lemma cr_log s e : other_ev e -> CR s (set_n_log s (n_log s ++ [e])).
Proof. intro H. split; [reflexivity|]. cbn. rewrite resets_app. destruct e; try contradiction; apply app_nil_r. Qed.
Ltac cr_facts :=
  assert (Rlog : forall s e, other_ev e -> CR s (set_n_log s (n_log s ++ [e]))) by exact cr_log;
  assert (Rorc : forall s o, CR s (set_n_orc s o)) by (intros; split; reflexivity);
  assert (Rerr : forall s e, CR s (set_n_err s e)) by (intros; split; reflexivity);
  assert (Rcfg : forall s k, CR s (set_n_cfg s k)) by (intros; split; reflexivity);
  assert (Rtx : forall s k, CR s (set_n_tx s k)) by (intros; split; reflexivity);
  assert (Rhw : forall s k, CR s (set_n_hw s k)) by (intros; split; reflexivity);
  assert (Rmem : forall s k, CR s (set_n_mem s k)) by (intros; split; reflexivity);
  assert (Psil : forall c p t n st, other_ev (EvSilent c p t n st)) by (intros; exact I);
  assert (Ptype : forall c t, other_ev (EvType c t)) by (intros; exact I);
  assert (Prate : forall r, other_ev (EvRate r)) by (intros; exact I);
  assert (Ptx : forall id d x ok, other_ev (EvTx id d x ok)) by (intros; exact I);
  assert (Ptime : forall c t z d, other_ev (EvTime c t z d)) by (intros; exact I).
Lemma cr_sys_cmd bc pos nr src : byte_at src 0 <> 8 -> byte_at src 0 <> 48 -> pres CR (sys_cmd E bc pos nr src).
Proof.
  intros H8 H48.
  cr_facts.
  assert (C8 : cmd_of (b src 0) <> CProcess).
  { intro C. apply H8. change (byte_at src 0) with (b src 0). unfold cmd_of in C. repeat match type of C with (if ?x =? ?c then _ else _) = _ => destruct (N.eqb_spec x c); [first [discriminate|assumption]|] end. discriminate. }
  assert (C48 : cmd_of (b src 0) <> CReset).
  { intro C. apply H48. change (byte_at src 0) with (b src 0). unfold cmd_of in C. repeat match type of C with (if ?x =? ?c then _ else _) = _ => destruct (N.eqb_spec x c); [first [discriminate|assumption]|] end. discriminate. }
  unfold sys_cmd. refine (pres_bind _ _ _ _ _); [pres_tac|intro n].
  destruct (cmd_of (b src 0)); try congruence.
  - refine (pres_bind _ _ _ _ _); [pres_tac|intro z]. refine (pres_bind _ _ _ _ _); [|intros _; simple apply (pres_status_rest E CR other_ev); assumption].
    destruct (z_first z); [pres_tac|]. refine (pres_bind _ _ _ _ _); [apply pres_modify; split; reflexivity|intros _]. unfold emit. apply pres_modify. intro. apply cr_log. exact I.
  - repeat ((simple apply (pres_set_node_mode CR); assumption) || (simple apply (pres_set_baudrate CR other_ev); assumption) || pres_tac1).
  - pres_tac.
  - repeat ((simple apply (pres_version_ackn E CR other_ev); assumption) || pres_tac1).
  - refine (pres_bind _ _ _ _ _); [pres_tac|intro z]. refine (pres_bind _ _ _ _ _); [|intros _; pres_tac].
    unfold emit_cb. destruct (z_cbt z); [|pres_tac]. unfold emit. apply pres_modify. intro. apply cr_log. exact I.
  - pres_tac.
  - pres_tac.
  - repeat ((simple apply (pres_change_nr E CR other_ev); assumption) || pres_tac1).
  - repeat ((simple apply (pres_sys_silent_awake E CR other_ev); assumption) || pres_tac1).
  - repeat ((simple apply (pres_sys_silent_awake E CR other_ev); assumption) || pres_tac1).
  - pres_tac.
  - repeat ((simple apply (pres_change_type E CR other_ev); assumption) || pres_tac1).
  - pres_tac.
Qed.

Definition plain_op (o : op) : Prop := match o with OpCycle _ | OpFrame _ _ _ _ _ => False | _ => True end.
Lemma cr_plain o : plain_op o -> pres CR (step E o).
Proof.
  intro Ho. cr_facts.
  assert (Rsync : forall s k, y_cyc k = y_cyc (n_sync s) -> CR s (set_n_sync s k)) by (intros s k H; split; [exact H|reflexivity]).
  assert (Rsys : forall s k, CR s (set_n_sys s k)) by (intros; split; reflexivity).
  destruct o; try contradiction; cbn [step]; unfold ignore.
  - refine (pres_bind _ _ _ _ _); [|intro; pres_tac]. simple apply (pres_add_module E CR other_ev); assumption.
  - refine (pres_bind _ _ _ _ _); [|intro; pres_tac]. unfold set_silent_awake_type_nr. refine (pres_bind _ _ _ _ _); [pres_tac|intro t].
    destruct (find_type_nr _ _ _ _); [|pres_tac]. simple apply (pres_set_silent_awake E CR other_ev); assumption.
  - refine (pres_bind _ _ _ _ _); [|intro; pres_tac]. simple apply (pres_change_nr_ids E CR other_ev); assumption.
  - refine (pres_bind _ _ _ _ _); [|intro; pres_tac]. simple apply (pres_change_type_add CR); assumption.
  - apply pres_modify. intro. split; reflexivity.
  - apply pres_modify. intro. split; reflexivity.
  - unfold set_image_cb. refine (pres_bind _ _ _ _ _); [|intro; pres_tac]. refine (pres_bind _ _ _ _ _); [pres_tac|intro t].
    destruct (find_type_nr _ _ _ _); [|pres_tac]. refine (pres_bind _ _ _ _ _); [|intro; pres_tac]. apply pres_modify. intro. destruct k; split; reflexivity.
  - apply pres_modify. intro. split; reflexivity.
  - apply pres_modify. intro. split; reflexivity.
  - apply pres_modify. intro. split; reflexivity.
  - pres_tac; auto.
  - unfold trigger_period. apply pres_modify. intro s. unfold upd_sync. cbn zeta. destruct (_ <? _); split; reflexivity.
  - refine (pres_bind _ _ _ _ _); [|intro; pres_tac]. unfold get_period. refine (pres_bind _ _ _ _ _); [pres_tac|intro p0]. destruct (_ <? _); [|pres_tac].
    refine (pres_bind _ _ _ _ _); [|intro; pres_tac]. apply pres_modify. intro. split; reflexivity.
  - refine (pres_bind _ _ _ _ _); [|intro; pres_tac]. simple apply (pres_set_node_mode CR); assumption.
  - refine (pres_bind _ _ _ _ _); [|intro; pres_tac]. simple apply (pres_set_baudrate CR other_ev); assumption.
  - apply pres_modify. intro. split; reflexivity.
  - refine (pres_bind _ _ _ _ _); [|intro; pres_tac]. simple apply (pres_set_active_critical CR); assumption.
Qed.
Lemma cr_report e : pres CR (report_if e).
Proof. unfold report_if. pres_tac; intros; split; reflexivity. Qed.
Lemma resets_verdicts s now l : resets (map (ev_of s now) l) = [].
Proof. induction l as [|x l IH]; [reflexivity|]. cbn [map]. unfold resets in *. cbn [filter]. exact IH. Qed.
Lemma cr_check now : pres CR (check_image now).
Proof.
  intros s u s' H. destruct u. apply check_image_inv in H. cbn zeta in H. destruct H as (_ & _ & _ & (img & Y) & L). split.
  - rewrite Y. destruct (y_pr_flag (n_sync s)), (evaluated s); try reflexivity; destruct (forallb (module_valid s) (seq 0 (nmod s))); reflexivity.
  - rewrite L, resets_app. destruct (evaluated s); [|apply app_nil_r]. rewrite resets_app, resets_verdicts.
    destruct (forallb (module_valid s) (seq 0 (nmod s))); apply app_nil_r.
Qed.
Lemma cr_request : pres CR process_request_rx.
Proof.
  unfold process_request_rx. refine (pres_bind _ _ _ _ _); [pres_tac|intro y]. refine (pres_bind _ _ _ _ _).
  - destruct (y_first y); [pres_tac|]. refine (pres_bind _ _ _ _ _); [apply pres_modify; split; reflexivity|intros _]. unfold emit. apply pres_modify. intro. apply cr_log. exact I.
  - intros _. unfold emit_cb, emit. pres_tac. apply cr_log. exact I.
Qed.
Lemma cr_process dlc now : pres CR (rx_process_main dlc now).
Proof. unfold rx_process_main. pres_tac. split; reflexivity. Qed.
Lemma cr_on_data mo id dlc data : pres CR (on_data E mo id dlc data).
Proof. cr_facts. apply (pres_on_data E CR); auto; intros; split; reflexivity. Qed.
Lemma cr_on_process dlc now : pres CR (on_process E dlc now).
Proof. cr_facts. apply (pres_on_process E CR other_ev); auto using cr_check, cr_request, cr_process. Qed.
Lemma cr_on_sys id dlc data : byte_at data 0 <> 8 -> byte_at data 0 <> 48 -> pres CR (on_sys E id dlc data).
Proof.
  intros A B. unfold on_sys, sys_msg_rx. repeat ((simple apply cr_sys_cmd; assumption) || simple apply cr_report || pres_tac1).
Qed.

Lemma step_not_told pre o s s' : reached E pre s -> step E o s = Ret (tt, s') ->
  (match o with OpCycle _ => False | _ => True end) -> master_tells E s o 8 = false -> master_tells E s o 48 = false -> CR s s'.
Proof.
  intros R H N A B. destruct o; try contradiction; try (eapply cr_plain; [|exact H]; exact I).
  destruct (sys_mo E mo) eqn:M.
  - cbn [master_tells] in A, B. rewrite M in A, B. cbn [andb] in A, B.
    destruct (N.eqb_spec dlc 8) as [->|D].
    + cbn [andb] in A, B. destruct (heard s id) eqn:Hh.
      * cbn [andb] in A, B. apply step_sys in H; auto; [|eapply HwI_reached; eauto].
        eapply cr_on_sys; [| |exact H]; apply N.eqb_neq; assumption.
      * eapply sys_step in H; eauto. unfold heard in Hh. destruct (id_nr id =? 1).
        -- destruct (nmod s =? 0)%nat; [|discriminate]. destruct H as (r & -> & _). split; reflexivity.
        -- destruct (entry_of_nr s (id_nr id)); [discriminate|]. subst. apply pre_refl.
    + eapply wrong_dlc in H; eauto. destruct H as (-> & _). split; reflexivity.
  - cbn [step] in H. unfold frame_rx in H. unfold sys_mo in M. rewrite M in H.
    assert (P : pres CR (sy <- gets (is_sync_mo mo) ;; (if sy then on_data E mo id dlc data else ret tt) ;;; (if (mo =? MO_PROCESS)%nat then on_process E dlc now else ret tt) ;;; ret tt)).
    { repeat (simple apply cr_on_data || simple apply cr_on_process || pres_tac1). }
    eapply P. exact H.
Qed.

Lemma tells_inv s o what : master_tells E s o what = true ->
  exists mo id data now, o = OpFrame mo id 8 data now /\ sys_mo E mo = true /\ heard s id = true /\ byte_at data 0 = what.
Proof.
  destruct o; try discriminate. cbn [master_tells]. intro H. apply andb_true_iff in H. destruct H as [H H4]. apply andb_true_iff in H. destruct H as [H H3].
  apply andb_true_iff in H. destruct H as [H1 H2]. apply N.eqb_eq in H2, H4. subst dlc. exists mo, id, data, now. auto.
Qed.
Lemma cycle_told pre o s s' : reached E pre s -> step E o s = Ret (tt, s') -> master_tells E s o TELL_CYCLE = true ->
  s' = set_n_err (set_n_sync s (set_y_cyc (n_sync s) (N.min (op_byte o 2) (PMAX E)))) (n_err s') /\
  (if op_byte o 2 <=? PMAX E then n_err s' = n_err s
   else exists r, syserr_send (n_err s) E_CONFIG_INVALID LVL_INFO (m_nr (modat s 0)) = Some (n_err s', r)).
Proof.
  intros R H T. apply tells_inv in T. destruct T as (mo & id & data & now & -> & M & Hh & B). cbn [op_byte].
  exact (cycle_message pre mo id data now s s' R M Hh B H).
Qed.
Lemma reset_told pre o s s' : reached E pre s -> step E o s = Ret (tt, s') -> master_tells E s o TELL_RESET = true ->
  s' = set_n_log s (n_log s ++ match z_cbr (n_sys s) with Some c => [EvReset c (op_byte o 1)] | None => [] end).
Proof.
  intros R H T. apply tells_inv in T. destruct T as (mo & id & data & now & -> & M & Hh & B). cbn [op_byte].
  exact (reset_message pre mo id data now s s' R M Hh B H).
Qed.
Lemma tells_one s o : master_tells E s o TELL_CYCLE = true -> master_tells E s o TELL_RESET = false.
Proof.
  intro T. destruct (master_tells E s o TELL_RESET) eqn:T2; [|reflexivity]. apply tells_inv in T, T2.
  destruct T as (mo & id & data & now & -> & _ & _ & B). destruct T2 as (mo' & id' & data' & now' & X & _ & _ & B').
  injection X as <- <- <- <-. rewrite B in B'. discriminate.
Qed.
Lemma cycle_set t s s' : step E (OpCycle t) s = Ret (tt, s') -> y_cyc (n_sync s') = N.min t (PMAX E) /\ n_log s' = n_log s.
Proof.
  intro H. cbn [step] in H. unfold ignore, set_cycle_time in H. mbind H as e s1 H1. apply ret_inv in H. destruct H as [_ ->].
  destruct (N.leb_spec t (PMAX E)); mbind H1 as u s2 H3; apply modify_inv in H3; apply ret_inv in H1; destruct H1 as [_ ->]; subst s2; split; try reflexivity; cbn; lia.
Qed.
Lemma cycle_after_step pre o s s' : reached E pre s -> step E o s = Ret (tt, s') ->
  y_cyc (n_sync s') =
    match o with
    | OpCycle t => N.min t (PMAX E)
    | _ => if master_tells E s o TELL_CYCLE then N.min (op_byte o 2) (PMAX E) else y_cyc (n_sync s)
    end.
Proof.
  intros R H. destruct (match o with OpCycle t => Some t | _ => None end) as [t|] eqn:C.
  - destruct o; try discriminate. apply (proj1 (cycle_set _ _ _ H)).
  - assert (G : y_cyc (n_sync s') = if master_tells E s o TELL_CYCLE then N.min (op_byte o 2) (PMAX E) else y_cyc (n_sync s)).
    { destruct (master_tells E s o TELL_CYCLE) eqn:T.
      - destruct (cycle_told pre o s s' R H T) as [-> _]. reflexivity.
      - destruct (master_tells E s o TELL_RESET) eqn:T2.
        + rewrite (reset_told pre o s s' R H T2). reflexivity.
        + apply (step_not_told pre o s s' R H); auto. destruct o; auto. discriminate. }
    destruct o; try exact G. discriminate.
Qed.
Lemma reset_after_step pre o s s' new : reached E pre s -> step E o s = Ret (tt, s') -> n_log s' = n_log s ++ new ->
  resets new =
    if master_tells E s o TELL_RESET then match z_cbr (n_sys s) with Some c => [EvReset c (op_byte o 1)] | None => [] end else [].
Proof.
  intros R H L.
  assert (Q : forall x, n_log s' = n_log s ++ x -> new = x) by (intros x X; rewrite X in L; apply app_inv_head in L; auto).
  destruct (master_tells E s o TELL_RESET) eqn:T2.
  - assert (X := reset_told pre o s s' R H T2). rewrite (Q (match z_cbr (n_sys s) with Some c => [EvReset c (op_byte o 1)] | None => [] end)) by (rewrite X; reflexivity).
    destruct (z_cbr (n_sys s)); reflexivity.
  - assert (X : resets (n_log s') = resets (n_log s)).
    { destruct (master_tells E s o TELL_CYCLE) eqn:T.
      - destruct (cycle_told pre o s s' R H T) as [-> _]. reflexivity.
      - destruct (match o with OpCycle t => true | _ => false end) eqn:C.
        + destruct o; try discriminate. rewrite (proj2 (cycle_set _ _ _ H)). reflexivity.
        + apply (step_not_told pre o s s' R H); auto. destruct o; auto. discriminate. }
    rewrite L, resets_app in X. rewrite <- (app_nil_r (resets (n_log s))) in X at 2. apply app_inv_head in X. exact X.
Qed.
Lemma reset_broadcast pre s id data now s' c : reached E pre s -> id_nr id = 1 -> nmod s <> 0%nat -> z_cbr (n_sys s) = Some c ->
  byte_at data 0 = TELL_RESET -> step E (OpFrame MO_SYS1 id 8 data now) s = Ret (tt, s') ->
  n_log s' = n_log s ++ [EvReset c (byte_at data 1)].
Proof.
  intros R ID N C B H. assert (X := reset_told pre _ s s' R H). rewrite C in X. rewrite X; [reflexivity|].
  cbn [master_tells]. unfold sys_mo. rewrite Nat.eqb_refl. cbn [orb andb]. change (8 =? 8) with true. rewrite B. change (TELL_RESET =? TELL_RESET) with true. rewrite andb_true_r.
  cbn [andb]. unfold heard. rewrite ID. change (1 =? 1) with true. cbv iota. apply negb_true_iff, Nat.eqb_neq. exact N.
Qed.
End Notify.
