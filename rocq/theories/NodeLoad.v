(** Counting the frames of an operation (C95). *)
From Verif Require Import Words WordsFacts Bits ErrModel NodeModel NodeLib NodeInv NodeSpec NodeHw NodeCnt NodeSync NodeImage NodeSilent NodePres NodeSysP NodeTx NodeSend NodeNum NodeRx NodeTxP NodeLoadSpec.

Definition upto (k : nat) (s s' : node) : Prop := exists new, n_log s' = n_log s ++ new /\ (length (sent new) <= k)%nat.
Lemma upto_trans a c s1 s2 s3 k : upto a s1 s2 -> upto c s2 s3 -> (a + c <= k)%nat -> upto k s1 s3.
Proof. intros (n1 & L1 & S1) (n2 & L2 & S2) K. exists (n1 ++ n2). rewrite L2, L1, app_assoc, sent_app, app_length. split; [reflexivity|lia]. Qed.
Lemma upto_after k s1 s2 s3 : upto 0 s1 s2 -> upto k s2 s3 -> upto k s1 s3.
Proof. intros A B. eapply upto_trans; [exact A|exact B|lia]. Qed.
Lemma upto_refl k s : upto k s s.
Proof. exists []. rewrite app_nil_r. split; [reflexivity|cbn; lia]. Qed.
Lemma upto_le a k s s' : upto a s s' -> (a <= k)%nat -> upto k s s'.
Proof. intros (n & L & S) K. exists n. split; [exact L|lia]. Qed.
Lemma quiet_upto s s' : quiet s s' -> upto 0 s s'.
Proof. intros (n & L & S). exists n. rewrite S. split; [exact L|cbn; lia]. Qed.
Lemma upto_added k s s' new : upto k s s' -> added s s' new -> (length (sent new) <= k)%nat.
Proof. intros (n & L & S) A. unfold added in A. rewrite A in L. apply app_inv_head in L. subst n. exact S. Qed.

Definition em {A} (k : nat) (m : M A) : Prop := forall s x s', m s = Ret (x, s') -> upto k s s'.
Lemma em_bind {A B} a c k (m : M A) (f : A -> M B) : em a m -> (forall x, em c (f x)) -> (a + c <= k)%nat -> em k (bind m f).
Proof. intros Hm Hf K s x s' H. mbind H as y s1 H1. eapply upto_trans; [eapply Hm, H1|eapply Hf, H|exact K]. Qed.
Lemma em_quiet {A} (m : M A) : pres quiet m -> em 0 m.
Proof. intros P s x s' H. apply quiet_upto, (P _ _ _ H). Qed.
Lemma em_le {A} a k (m : M A) : em a m -> (a <= k)%nat -> em k m.
Proof. intros P K s x s' H. eapply upto_le; [eapply P, H|exact K]. Qed.
Lemma em_ret {A} k (x : A) : em k (ret x).
Proof. intros s y s' H. apply ret_inv in H. destruct H as [_ ->]. apply upto_refl. Qed.
Lemma em_gets {A} k (f : node -> A) : em k (gets f).
Proof. intros s y s' H. apply gets_inv in H. destruct H as [_ ->]. apply upto_refl. Qed.
Lemma em_for_err k f n : (forall j, em k (f j)) -> forall i, em (n * k) (for_err n i f).
Proof.
  intro Hf. induction n as [|n IH]; intro i; cbn [for_err]; [apply em_ret|].
  eapply (em_bind k (n * k)); [apply Hf| |lia]. intro a. destruct (a =? ERR_OK); [apply IH|apply em_ret].
Qed.
#[local] Instance pre_quiet' : Pre quiet.
Proof.
  split.
  - intro s. exists []. rewrite app_nil_r. auto.
  - intros a b c (n1 & L1 & S1) (n2 & L2 & S2). exists (n1 ++ n2). rewrite L2, L1, sent_app, S1, S2, app_assoc. auto.
Qed.
Lemma em_send_msg id dlc data : em 1 (send_msg id dlc data).
Proof. intros s x s' H. apply send_msg_inv in H. destruct H as (_ & _ & _ & ok & L & _). eexists. split; [exact L|]. cbn. lia. Qed.
Lemma em_sys_tx nr data : em 1 (sys_tx nr data).
Proof.
  unfold sys_tx. eapply (em_bind 0 1); [apply em_gets| |lia]. intro tab. destruct (find_nr tab nr 0); [|apply em_ret].
  eapply (em_bind 0 1); [apply em_gets| |lia]. intro st. destruct (st =? AWAKE); [|apply em_ret].
  eapply (em_bind 1 0); [apply em_send_msg|intro; apply em_ret|lia].
Qed.
Lemma em_send_error x : em 1 (send_error x).
Proof. unfold send_error. eapply (em_bind 0 1); [apply em_gets| |lia]. intro main. apply em_sys_tx. Qed.
Lemma em_get_error : em 0 get_error.
Proof. intros s x s' H. unfold get_error in H. destruct (es_get (n_err s)) as [[st [e r]]|]; [|discriminate]. injection H as _ <-. exists []. cbn. rewrite app_nil_r. split; [reflexivity|lia]. Qed.
Lemma em_one_error : em 1 send_one_error.
Proof. unfold send_one_error. eapply (em_bind 0 1); [apply em_get_error| |lia]. intros [e|]; [apply em_send_error|apply em_ret]. Qed.
Lemma em_drain n : em n (drain_errors n).
Proof.
  induction n as [|n IH]; cbn [drain_errors].
  - eapply (em_bind 0 0); [apply em_gets| |lia]. intro c. destruct (c =? 0)%nat; [apply em_ret|]. intros s x s' H. discriminate.
  - eapply (em_bind 0 (S n)); [apply em_gets| |lia]. intro c. destruct (c =? 0)%nat; [apply em_ret|].
    eapply (em_bind 1 n); [apply em_one_error|intro; exact IH|lia].
Qed.
(** the send loop sends at most one frame for each bit of the register *)
Lemma skip_shift xe n : forall send cur, exists k, fst (skip n send cur xe) = N.shiftr send k.
Proof.
  induction n as [|n IH]; intros send cur; cbn [skip]; [exists 0; symmetry; apply N.shiftr_0_r|].
  destruct ((cur <=? xe)%nat && negb (N.odd send)); [|exists 0; symmetry; apply N.shiftr_0_r].
  destruct (IH (N.shiftr send 1) (S cur)) as [k K]. exists (1 + k). rewrite K, N.shiftr_shiftr. reflexivity.
Qed.
Section Load.
Variable E : env.
Hypothesis HE : env_ok E.

Lemma em_send_one cur can : em 1 (send_one E cur can).
Proof.
  unfold send_one. eapply (em_bind 0 1); [apply em_quiet; pres_tac| |lia]. intro u.
  eapply (em_bind 0 1); [apply em_gets| |lia]. intro dlc. eapply (em_bind 0 1); [| |lia].
  { apply em_quiet. unfold tx_data_main. pres_tac. }
  intro r. eapply (em_bind 1 0); [|intro; apply em_ret|lia]. destruct (snd r =? ERR_OK).
  - eapply (em_bind 0 1); [apply em_gets| |lia]. intro idl. eapply (em_bind 1 0); [apply em_send_msg| |lia]. intro e. apply em_quiet, quiet_report.
  - eapply em_le; [apply em_quiet, quiet_report|lia].
Qed.
Lemma em_loop fuel : forall w send cur can, send < 2 ^ N.of_nat w -> em w (send_loop E fuel send cur can).
Proof.
  induction fuel as [|f IH]; intros w send cur can W; cbn [send_loop]; [intros s x s' H; discriminate|].
  destruct (send =? 0) eqn:Z; [apply em_ret|]. eapply (em_bind 0 w); [apply em_gets| |lia]. intro xe.
  destruct (skip_shift xe (S xe) send cur) as [k K]. destruct (skip (S xe) send cur xe) as [send1 cur1]. cbn [fst] in K.
  assert (send1 <= send) as Le. { rewrite K, N.shiftr_div_pow2. apply N.div_le_upper_bound; [apply N.pow_nonzero; discriminate|]. pose proof (N.neq_0_lt_0 (2 ^ k)) as P. assert (2 ^ k <> 0) by (apply N.pow_nonzero; discriminate). nia. }
  destruct (N.odd send1) eqn:O; [|apply IH; lia]. destruct w as [|w].
  - exfalso. change (2 ^ N.of_nat 0) with 1 in W. assert (send1 = 0) by lia. subst send1. rewrite H in O. discriminate.
  - eapply (em_bind 1 w); [apply em_send_one| |lia]. intro can'. apply IH. rewrite N.shiftr_div_pow2. change (2 ^ 1) with 2.
    rewrite Nat2N.inj_succ, N.pow_succ_r' in W. lia.
Qed.

(** invariant: 32 bits in the register, the error memory within its size *)
Definition fitso (c : option nat) (st : errstore) : Prop := match c with Some k => fits k st | None => True end.
Definition bounded (c : option nat) (s : node) : Prop := x_reg (n_tx s) < 4294967296 /\ fitso c (n_err s).
Definition BR (c : option nat) (s s' : node) : Prop := bounded c s -> bounded c s'.
#[local] Instance pre_BR c : Pre (BR c) := pre_imp (bounded c).
Lemma lt32_bits x : x < 4294967296 <-> N.land x (N.ones 32) = x.
Proof. rewrite N.land_ones. change (2 ^ 32) with 4294967296. split; intro H; [apply N.mod_small; exact H|]. rewrite <- H. apply N.mod_lt. discriminate. Qed.
Lemma lt32_lor x y : x < 4294967296 -> y < 4294967296 -> N.lor x y < 4294967296.
Proof. rewrite !lt32_bits. intros X Y. rewrite N.land_lor_distr_l, X, Y. reflexivity. Qed.
Lemma ldiff_le x y : N.ldiff x y <= x.
Proof. apply N.ldiff_le. apply N.bits_inj. intro n. rewrite !N.ldiff_spec, N.bits_0. destruct (N.testbit x n); cbn; auto using andb_false_r. Qed.
Lemma lt32_ldiff x y : x < 4294967296 -> N.ldiff x y < 4294967296.
Proof. intro X. pose proof (ldiff_le x y). lia. Qed.
Lemma txbit_lt p o : txbit p o < 4294967296.
Proof. unfold txbit, u32. apply N.mod_lt. discriminate. Qed.
Lemma fits_send c st a b0 d st' r : fits c st -> syserr_send st a b0 d = Some (st', r) -> fits c st'.
Proof.
  unfold syserr_send, syserr_send_info, es_send. destruct st as [size q|s]; cbn [fits]; intros [A B] H.
  - destruct (eq_send_full size q _ _ _ _ _ _) as [[q' e]|] eqn:Q; [|discriminate]. injection H as <- _. cbn [fits]. split; [exact A|].
    unfold eq_send_full in Q. set (q1 := if q_ready q then q else eq_init size) in Q.
    assert (q_count q1 <= size)%nat as B1 by (unfold q1; destruct (q_ready q); [exact B|cbn; lia]). clearbody q1.
    destruct (_ =? LVL_FATAL); [injection Q as <- _; exact B1|].
    destruct (Nat.ltb_spec size (q_count q1 + 2)); [injection Q as <- _; exact B1|].
    destruct (Words.upd _ _ _); [|discriminate]. destruct (size =? q_count q1 + 2)%nat.
    + destruct (Words.upd _ _ _); [|discriminate]. injection Q as <- _. cbn [q_count]. destruct (Nat.ltb_spec (q_count q1) size); [|lia]. destruct (Nat.ltb_spec (S (q_count q1)) size); lia.
    + injection Q as <- _. cbn [q_count]. destruct (Nat.ltb_spec (q_count q1) size); lia.
  - destruct (es_send_full s _ _ _ _ _ _) as [s1 e] eqn:Q. injection H as <- _. cbn [fits]. split; [exact A|]. unfold es_send_full in Q. destruct (_ =? LVL_FATAL); injection Q as <- _; [exact B|cbn; lia].
Qed.
Lemma fits_get c st st' r : fits c st -> es_get st = Some (st', r) -> fits c st'.
Proof.
  unfold es_get. destruct st as [size q|s]; cbn [fits]; intros [A B] H.
  - destruct (eq_get_full size q) as [[q' e]|] eqn:Q; [|discriminate]. injection H as <- _. cbn [fits]. split; [exact A|].
    unfold eq_get_full in Q. destruct (q_ready q); cbn [negb] in Q; [|injection Q as <- _; exact B]. destruct (q_count q =? 0)%nat; [injection Q as <- _; exact B|].
    destruct (nth_error _ _); [|discriminate]. injection Q as <- _. cbn [q_count]. lia.
  - injection H as <- _. cbn [fits s_count]. lia.
Qed.
Lemma BR_report c a b0 d : pres (BR c) (report a b0 d).
Proof.
  intros s x s' H [X F]. unfold report in H. destruct (syserr_send (n_err s) a b0 d) as [[st r]|] eqn:Q; [|discriminate]. injection H as _ <-.
  split; [exact X|]. destruct c; [|exact I]. cbn in *. eapply fits_send; eauto.
Qed.
Lemma BR_report_if c e : pres (BR c) (report_if e).
Proof. unfold report_if. destruct (e =? ERR_OK); [pres_tac|]. refine (pres_bind _ _ _ _ _); [pres_tac|]. intro. apply BR_report. Qed.
Lemma BR_get_error c : pres (BR c) get_error.
Proof.
  intros s x s' H [X F]. unfold get_error in H. destruct (es_get (n_err s)) as [[st [e r]]|] eqn:Q; [|discriminate]. injection H as _ <-.
  split; [exact X|]. destruct c; [|exact I]. cbn in *. eapply fits_get; eauto.
Qed.
Ltac br_leaf := intros [? ?]; split; cbn; auto using lt32_lor, lt32_ldiff, txbit_lt; try lia.
Ltac br1 := simple apply BR_report || simple apply BR_report_if || simple apply BR_get_error || (simple apply pres_call_rx; [typeclasses eauto|intros; br_leaf; fail]) || pres_tac1.
Ltac br := repeat br1; try (br_leaf; fail).
Lemma BR_define_obj c x1 x2 x3 x4 x5 x6 x7 : pres (BR c) (define_obj E x1 x2 x3 x4 x5 x6 x7).
Proof. unfold define_obj, hw_define. br. Qed.
Lemma BR_silent c p st : pres (BR c) (set_silent_awake E p st).
Proof. unfold set_silent_awake, sync_off, sync_on, tx_data_on, tx_data_off. br. Qed.
Lemma BR_part c t on : pres (BR c) (set_active_critical t on).
Proof. unfold set_active_critical, sync_off, sync_on, tx_data_on, tx_data_off. br. Qed.
Lemma BR_shared c x1 x2 x3 x4 : pres (BR c) (define_shared E x1 x2 x3 x4).
Proof. unfold define_shared, get_async_ctrl_obj, next_free. repeat (simple apply BR_define_obj || simple apply BR_silent || br1); br_leaf. Qed.
Lemma BR_cnfg c x1 x2 x3 : pres (BR c) (tx_data_cnfg E x1 x2 x3).
Proof. unfold tx_data_cnfg. br. Qed.
Lemma BR_nr_ids c t n a : pres (BR c) (change_nr_ids E t n a).
Proof. unfold change_nr_ids. repeat (simple apply BR_define_obj || simple apply BR_shared || simple apply BR_cnfg || br1); br_leaf. Qed.
Lemma BR_set_module c i d nr rxs txs : pres (BR c) (set_module E i d nr rxs txs).
Proof. unfold set_module, rx_slot, rx_data_cnfg, next_free. repeat (simple apply BR_define_obj || simple apply BR_shared || simple apply BR_cnfg || br1); br_leaf. Qed.
Lemma BR_baud c r : pres (BR c) (set_baudrate r).
Proof.
  unfold set_baudrate. refine (pres_bind _ _ _ _ _); [pres_tac|intro tab]. generalize ERR_OK.
  induction tab as [|x tab IH]; intro e; cbn [set_baudrate_loop]; [pres_tac|].
  destruct (r =? x); [|apply IH]. unfold hw_set_baudrate. repeat (simple apply IH || br1); br_leaf.
Qed.
Lemma BR_mode c m : pres (BR c) (set_node_mode m).
Proof. unfold set_node_mode. br. Qed.
Lemma BR_sys_tx c nr data : pres (BR c) (sys_tx nr data).
Proof. unfold sys_tx, send_msg. br. Qed.
Lemma BR_one_error c : pres (BR c) send_one_error.
Proof. unfold send_one_error, send_error. repeat (simple apply BR_sys_tx || br1); br_leaf. Qed.
Lemma BR_drain c n : pres (BR c) (drain_errors n).
Proof. induction n as [|n IH]; cbn [drain_errors]; repeat (simple apply IH || simple apply BR_one_error || br1). Qed.
Lemma BR_sys_cmd c bc p nr src : pres (BR c) (sys_cmd E bc p nr src).
Proof.
  unfold sys_cmd, sys_silent_awake, change_nr, change_type, set_cycle_time, status_ackn, version_ackn.
  repeat (simple apply BR_mode || simple apply BR_baud || simple apply BR_nr_ids || simple apply BR_silent || simple apply BR_cnfg || simple apply BR_sys_tx || simple apply BR_drain || br1); br_leaf.
Qed.
Lemma BR_send c : pres (BR c) (send_process_data E).
Proof.
  unfold send_process_data. refine (pres_bind _ _ _ _ _); [pres_tac|intro reg]. generalize (JUNK E) 0%nat reg SEND_FUEL. clear reg.
  intros can cur reg fuel. revert can cur reg. induction fuel as [|f IH]; intros; cbn [send_loop]; [intros s x s' H; discriminate|].
  unfold send_one, tx_data_main, send_msg. repeat (simple apply IH || br1); br_leaf.
Qed.
Lemma BR_check c n : forall first now, pres (BR c) (check_modules n first now).
Proof. induction n as [|n IH]; intros; cbn [check_modules]; unfold check_module; repeat (simple apply IH || br1); br_leaf. Qed.
Lemma BR_step c o : pres (BR c) (step E o).
Proof.
  destruct o; cbn [step]; unfold ignore, set_silent_awake_type_nr, change_type_add, set_image_cb, trigger_period, get_period, set_cycle_time, add_module.
  all: try (repeat (simple apply BR_mode || simple apply BR_baud || simple apply BR_nr_ids || simple apply BR_silent || simple apply BR_part || simple apply BR_set_module || br1); br_leaf; fail).
  unfold frame_rx, on_data, rx_data_main, on_process, on_sys, sys_msg_rx, process_request_rx, check_image, clear_image, rx_process_main.
  repeat (simple apply BR_sys_cmd || simple apply BR_check || simple apply BR_send || simple apply BR_one_error || br1); br_leaf.
Qed.
Lemma mute_quiet s s' : mute s s' -> n_tx s' = n_tx s /\ quiet s s'.
Proof. intros (_ & T & _ & Q). split; [exact T|exact Q]. Qed.
Lemma em_send s u s' : x_reg (n_tx s) < 4294967296 -> send_process_data E s = Ret (u, s') -> upto 32 s s'.
Proof.
  unfold send_process_data. generalize SEND_FUEL. intros fuel X H. mbind H as reg s5 H5. apply gets_inv in H5. destruct H5 as [-> ->]. eapply em_loop; [|exact H]. exact X.
Qed.
Lemma em_process dlc now s x s' : x_reg (n_tx s) < 4294967296 -> on_process E dlc now s = Ret (x, s') -> upto 33 s s'.
Proof.
  intros X H. unfold on_process in H. mbind H as u1 s1 H1. mbind H as u2 s2 H2. mbind H as u3 s3 H3. mbind H as u4 s4 H4. mbind H as c s5 H5.
  apply gets_inv in H5. destruct H5 as [-> ->].
  apply mute_request, mute_quiet in H1. destruct H1 as [T1 Q1]. apply mute_check, mute_quiet in H2. destruct H2 as [T2 Q2]. apply mute_main, mute_quiet in H4. destruct H4 as [_ Q4].
  assert (upto 32 s2 s3) as U3 by (eapply em_send; [rewrite T2, T1; exact X|exact H3]).
  assert (upto 1 s4 s') as U5. { destruct (0 <? err_count s4)%nat; [eapply em_one_error; exact H|]. apply ret_inv in H. destruct H as [_ ->]. apply upto_refl. }
  eapply (upto_trans 0 33); [eapply (upto_trans 0 0); [apply quiet_upto, Q1|apply quiet_upto, Q2|reflexivity]| |lia].
  eapply (upto_trans 32 1); [exact U3| |lia]. eapply (upto_trans 0 1); [apply quiet_upto, Q4|exact U5|lia].
Qed.
Lemma em_status p : em 1 (status_ackn E p).
Proof.
  unfold status_ackn. eapply (em_bind 0 1); [apply em_gets| |lia]. intro m. destruct (m =? _); [apply em_ret|]. destruct (MAXM E <=? p)%nat; [apply em_ret|].
  eapply (em_bind 0 1); [apply em_gets| |lia]. intro x. eapply (em_bind 1 0); [apply em_sys_tx|intro; apply em_ret|lia].
Qed.
Lemma em_version p : em 2 (version_ackn E p).
Proof.
  unfold version_ackn. eapply (em_bind 0 2); [apply em_gets| |lia]. intro m. destruct (m =? _); [apply em_ret|]. destruct (MAXM E <=? p)%nat; [apply em_ret|].
  eapply (em_bind 0 2); [apply em_gets| |lia]. intro x. eapply (em_bind 1 1); [apply em_sys_tx| |lia]. intro. eapply (em_bind 1 0); [apply em_sys_tx|intro; apply em_ret|lia].
Qed.
Lemma cmd_status x : cmd_of x = CStatus -> x = 1.
Proof. unfold cmd_of. intro H. destruct (N.eqb_spec x 1); auto. repeat (match goal with H : (if ?c then _ else _) = _ |- _ => destruct c end; [discriminate H|]). discriminate. Qed.
Lemma cmd_version x : cmd_of x = CVersion -> x = 5.
Proof. unfold cmd_of. intro H. do 3 (match goal with H : (if ?c then _ else _) = _ |- _ => destruct c end; [discriminate H|]). destruct (N.eqb_spec x 5); auto. repeat (match goal with H : (if ?c then _ else _) = _ |- _ => destruct c end; [discriminate H|]). discriminate. Qed.
Definition reply (s : node) (n : nat) (src : list byte) : nat :=
  if byte_at src 0 =? 1 then (n + es_count (n_err s))%nat else if byte_at src 0 =? 5 then (2 * n)%nat else O.
Lemma em_sys_cmd bc p nr src s x s' : sys_cmd E bc p nr src s = Ret (x, s') -> upto (reply s (if bc then nmod s else 1) src) s s'.
Proof.
  intro H. unfold sys_cmd in H. mbind H as n s0 H0. apply gets_inv in H0. destruct H0 as [-> ->]. unfold reply. change (byte_at src 0) with (b src 0).
  destruct (cmd_of (b src 0)) eqn:Ec;
  try (eapply upto_le; [|apply Nat.le_0_l]; apply quiet_upto; revert H;
    match goal with |- ?m s = _ -> _ => enough (pres quiet m) as P by (intro H; exact (P _ _ _ H)) end;
    unfold sys_silent_awake, change_nr, change_type, set_cycle_time;
    repeat (simple apply quiet_mode || simple apply quiet_baud || simple apply quiet_nr_ids || simple apply quiet_silent || simple apply quiet_cnfg || pres_tac1); quiet_leaf; fail).
  - apply cmd_status in Ec. rewrite Ec. change (1 =? 1) with true. cbv iota. mbind H as z s0 H0. apply gets_inv in H0. destruct H0 as [-> ->]. mbind H as u s2 H2.
    assert (quiet s s2 /\ n_err s2 = n_err s) as [Q2 E2].
    { destruct (z_first (n_sys s)); [apply ret_inv in H2; destruct H2 as [_ ->]; split; [apply pre_refl|reflexivity]|].
      mbind H2 as u3 s3 H3. apply modify_inv in H3. unfold emit in H2. apply modify_inv in H2. subst s2 s3. split; [quiet_leaf|reflexivity]. }
    unfold andthen in H. mbind H as e s3 H3.
    assert (upto (if bc then nmod s else 1) s2 s3 /\ n_err s3 = n_err s2) as [U3 E3].
    { assert (forall p, pres (fun s s' => n_err s' = n_err s) (status_ackn E p)) as K by (intro; unfold status_ackn, sys_tx, send_msg; pres_tac; reflexivity).
      destruct bc.
      - split; [|exact (pres_for_err (fun s s' => n_err s' = n_err s) _ 0 _ K _ _ _ H3)]. eapply upto_le; [exact (em_for_err 1 _ _ em_status 0%nat _ _ _ H3)|lia].
      - split; [eapply em_status; exact H3|]. exact (K _ _ _ _ H3). }
    eapply upto_after; [apply quiet_upto, Q2|]. eapply upto_trans; [exact U3| |rewrite <- E2, <- E3; apply le_n].
    destruct (e =? ERR_OK); [|apply ret_inv in H; destruct H as [_ ->]; apply upto_refl].
    mbind H as c s4 H4. apply gets_inv in H4. destruct H4 as [-> ->]. mbind H as u5 s5 H5. apply ret_inv in H. destruct H as [_ ->]. eapply em_drain. exact H5.
  - apply cmd_version in Ec. rewrite Ec. change (5 =? 1) with false. change (5 =? 5) with true. cbv iota. destruct bc.
    + eapply upto_le; [exact (em_for_err 2 _ _ em_version 0%nat _ _ _ H)|lia].
    + eapply upto_le; [eapply em_version; exact H|lia].
Qed.
Lemma BR_run c ops : forall s s', run E ops s = Ret (tt, s') -> BR c s s'.
Proof.
  induction ops as [|o ops IH]; intros s s' H; cbn [run] in H; [apply ret_inv in H; destruct H as [_ ->]; apply pre_refl|].
  mbind H as u s1 H1. eapply pre_trans; [eapply BR_step, H1|eapply IH, H].
Qed.
Lemma reg_boot s : booted E s -> x_reg (n_tx s) < 4294967296.
Proof.
  intros (mem & st & orc & rate & B).
  assert (pres (BR None) (can_init E rate)) as P.
  { unfold can_init, config_init, msg_objs_init, sys_init, sync_init. repeat (simple apply BR_define_obj || br1); br_leaf. }
  apply (P _ _ _ B). split; [reflexivity|exact I].
Qed.
Lemma reg_reached pre s : reached E pre s -> x_reg (n_tx s) < 4294967296.
Proof. intros (s0 & B & R). apply reg_boot in B. apply (BR_run None _ _ _ R). split; [exact B|exact I]. Qed.
Lemma em_step pre o s s' : reached E pre s -> step E o s = Ret (tt, s') -> upto (allowance E s o) s s'.
Proof.
  intros R H. pose proof (reg_reached _ _ R) as X.
  destruct o; try (cbn [allowance]; apply quiet_upto; revert H; cbn [step]; unfold ignore, set_silent_awake_type_nr, change_type_add, set_image_cb, trigger_period, get_period, set_cycle_time, add_module;
    match goal with |- ?m s = _ -> _ => enough (pres quiet m) as P by (intro H; exact (P _ _ _ H)) end;
    repeat (simple apply quiet_mode || simple apply quiet_baud || simple apply quiet_nr_ids || simple apply quiet_silent || simple apply quiet_part || simple apply quiet_set_module || simple apply quiet_report || pres_tac1); quiet_leaf; fail).
  - cbn [allowance]. destruct (sys_mo E mo) eqn:Hm.
    + assert ((mo =? MO_PROCESS)%nat = false) as Np. { unfold sys_mo, MO_SYS1, MO_SYS2, MO_PROCESS in *. destruct (Nat.eqb_spec mo 0); auto. subst mo. cbn in Hm. destruct (SYS2 E); discriminate. }
      rewrite Np. apply step_sys in H; auto; [|eapply HwI_reached; eauto]. rewrite on_sys_eq in H. mbind H as e s1 H1. apply quiet_report in H.
      eapply (upto_trans _ 0); [|apply quiet_upto, H|rewrite Nat.add_0_r; apply le_n]. unfold sys_msg_rx in H1. fold (reply s (addressees s id) data).
      destruct (negb (dlc =? 8)); [apply ret_inv in H1; destruct H1 as [_ ->]; apply upto_refl|]. unfold addressees. change NR_BROADCAST with 1 in H1. destruct (id_nr id =? 1).
      * mbind H1 as n s0 H0. apply gets_inv in H0. destruct H0 as [-> ->]. destruct (nmod s =? 0)%nat; [apply ret_inv in H1; destruct H1 as [_ ->]; apply upto_refl|].
        exact (em_sys_cmd true _ _ _ _ _ _ H1).
      * mbind H1 as n s0 H0. apply gets_inv in H0. destruct H0 as [-> ->]. destruct (find_nr (tab_of s) (id_nr id) 0) as [pos|]; [|apply ret_inv in H1; destruct H1 as [_ ->]; apply upto_refl].
        exact (em_sys_cmd false _ _ _ _ _ _ H1).
    + cbn [step] in H. unfold frame_rx in H. fold (sys_mo E mo) in H. rewrite Hm in H. mbind H as sy s0 H0. apply gets_inv in H0. destruct H0 as [-> ->]. mbind H as u1 s1 H1. mbind H as u2 s2 H2. apply ret_inv in H. destruct H as [_ ->].
      assert (pres (BR None) (if is_sync_mo mo s then on_data E mo id dlc data else ret tt)) as P1 by (unfold on_data, rx_data_main; br).
      assert (pres quiet (if is_sync_mo mo s then on_data E mo id dlc data else ret tt)) as P2 by (repeat (simple apply quiet_on_data || pres_tac1)).
      pose proof (P1 _ _ _ H1 (conj X I)) as [X1 _]. apply P2, quiet_upto in H1.
      eapply upto_after; [exact H1|]. destruct (mo =? MO_PROCESS)%nat; [|apply ret_inv in H2; destruct H2 as [_ ->]; apply upto_refl].
      eapply em_process; [exact X1|exact H2].
Qed.
Lemma run_load c ops : forall pre s s', reached E pre s -> fits c (n_err s) -> run E ops s = Ret (tt, s') -> upto (list_sum (map (worst E c) ops)) s s'.
Proof.
  induction ops as [|o ops IH]; intros pre s s' R F H; cbn [run] in H; [apply ret_inv in H; destruct H as [_ ->]; apply upto_refl|].
  mbind H as u s1 H1. destruct u. pose proof (reached_step E _ _ _ _ R H1) as R1. pose proof (BR_step (Some c) o s tt s1 H1 (conj (reg_reached _ _ R) F)) as [_ F1].
  cbn [map list_sum fold_right]. change (fold_right Nat.add 0%nat (map (worst E c) ops)) with (list_sum (map (worst E c) ops)).
  eapply upto_trans; [eapply upto_le; [eapply em_step; [exact R|exact H1]|]|eapply IH; [exact R1|exact F1|exact H]|apply le_n].
  destruct o; cbn [allowance worst]; try lia. destruct (mo =? MO_PROCESS)%nat; [lia|]. destruct (sys_mo E mo); [|lia].
  assert (es_count (n_err s) <= c)%nat as Ec. { destruct (n_err s) as [size q|sl]; cbn in *; [unfold eq_count; destruct (q_ready q); lia|lia]. }
  assert (nmod s <= MAXM E)%nat as Nm by (eapply nmod_le; eauto; apply (WF_reached E _ _ R)).
  assert (addressees s id <= MAXM E)%nat as Ad. { unfold addressees. destruct (id_nr id =? 1); [exact Nm|]. destruct HE as ((M1 & _) & _). exact M1. }
  destruct (byte_at data 0 =? 1); [lia|]. destruct (byte_at data 0 =? 5); lia.
Qed.
End Load.
