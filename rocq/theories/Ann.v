(** Every pending error is announced: the error memory over operations (for C105). *)
From Verif Require Import Words WordsFacts Bits Ring ErrModel ErrProofs NodeModel NodeLib NodeInv NodeSpec NodeHw NodeCnt NodeSync NodeImage NodeSilent NodePres NodeSysP NodeTx NodeSend NodeNum NodeTxP NodeLoad AnnSpec.
From Verif Require ErrSpec.

(** *** the queue *)
Lemma pend_eq size : (2 <= size)%nat -> forall l started reads armed q, rel size reads armed (started, l) q -> pending_errors (EsQueue size q) = l.
Proof.
  intros H2 l started reads armed q R. unfold pending_errors. pose proof (count_rel _ _ _ _ _ R) as C. cbn [eq_step snd] in C.
  assert (es_count (EsQueue size q) = length l) as -> by (cbn; congruence). clear C. revert started reads armed q R.
  induction l as [|e l IH]; intros started reads armed q R; [reflexivity|]. cbn [length pending_n].
  pose proof (count_rel _ _ _ _ _ R) as C. cbn [eq_step snd] in C. assert (es_count (EsQueue size q) = S (length l)) as -> by (cbn in *; congruence).
  destruct started; [|destruct (r_fresh _ _ _ _ _ R eq_refl) as [X _]; discriminate X].
  destruct (get_rel _ _ _ _ _ H2 R) as (q' & G & R'). cbn [ErrSpec.fifo_step negb fst snd] in *. cbn [eq_step] in G.
  cbn [es_get]. destruct (eq_get_full size q) as [[q1 [e1 r1]]|]; [|discriminate]. injection G as -> -> ->.
  change (S (length l) =? 0)%nat with false. change (ERR_OK =? ERR_OK) with true. cbv iota. cbn [app]. f_equal. eapply IH. exact R'.
Qed.
Lemma eq_run_app size a : forall c q q1 o1, eq_run size q a = Some (q1, o1) ->
  eq_run size q (a ++ c) = match eq_run size q1 c with Some (q2, o2) => Some (q2, o1 ++ o2) | None => None end.
Proof.
  induction a as [|x a IH]; intros c q q1 o1 H; cbn [eq_run app] in *; [injection H as <- <-; destruct (eq_run size q c) as [[]|]; reflexivity|].
  destruct (eq_step size q x) as [[q' o]|]; [|discriminate]. destruct (eq_run size q' a) as [[q2 o2]|] eqn:Ea; [|discriminate]. injection H as <- <-.
  rewrite (IH c _ _ _ Ea). destruct (eq_run size q2 c) as [[]|]; reflexivity.
Qed.
Lemma queue_rel size st : (2 <= size)%nat -> queue_of size st -> exists q reads armed started, st = EsQueue size q /\ rel size reads armed (started, pending_errors st) q.
Proof.
  intros H2 (calls & q & outs & -> & Q). pose proof (run_exact size calls 0 false _ _ H2 (rel_init size H2)) as R.
  destruct (ErrSpec.hazard size (false, []) 0 false calls); [congruence|]. destruct R as (q' & reads & armed & H & R). assert (q' = q) as -> by congruence.
  destruct (fst (ErrSpec.bounded_run size (false, []) calls)) as [started l]. exists q, reads, armed, started. split; [reflexivity|].
  rewrite (pend_eq size H2 _ _ _ _ _ R). exact R.
Qed.
Lemma queue_call size q o q' out : queue_of size (EsQueue size q) -> eq_step size q o = Some (q', out) -> queue_of size (EsQueue size q').
Proof.
  intros (calls & q0 & outs & X & Q) H. injection X as <-. exists (calls ++ [o]), q', (outs ++ [out]). split; [reflexivity|].
  rewrite (eq_run_app _ _ _ _ _ _ Q). cbn [eq_run]. rewrite H. reflexivity.
Qed.
Lemma queue_send size st a c d st' r : (2 <= size)%nat -> queue_of size st -> syserr_send st a c d = Some (st', r) ->
  queue_of size st' /\ exists news, pending_errors st' = pending_errors st ++ news.
Proof.
  intros H2 Q H. destruct (queue_rel _ _ H2 Q) as (q & reads & armed & started & -> & R). unfold syserr_send, syserr_send_info, es_send in H.
  destruct (eq_send_full size q _ _ _ _ _ _) as [[q' e]|] eqn:S; [|discriminate]. injection H as <- _.
  match type of S with eq_send_full _ _ ?c1 ?c2 ?c3 ?c4 ?c5 ?c6 = _ => set (o := ESend c1 c2 c3 c4 c5 c6); pose proof (send_rel size reads armed _ q c1 c2 c3 c4 c5 c6 H2 R) as X end.
  fold o in X. assert (eq_step size q o = Some (q', OSend e)) as G by (cbn [eq_step o]; rewrite S; reflexivity).
  split; [eapply queue_call; eauto|]. cbn zeta in X. rewrite G in X.
  assert (exists l2, snd (fst (ErrSpec.bounded_step size (started, pending_errors (EsQueue size q)) o)) = pending_errors (EsQueue size q) ++ l2) as [l2 L2].
  { unfold o, ErrSpec.bounded_step. destruct (ErrSpec.is_fatal _); [exists []; rewrite app_nil_r; reflexivity|]. destruct (_ <? size)%nat; [eexists; reflexivity|].
    destruct (_ =? size)%nat; [eexists; reflexivity|exists []; rewrite app_nil_r; reflexivity]. }
  exists l2. rewrite <- L2. destruct (fst (ErrSpec.bounded_step size (started, pending_errors (EsQueue size q)) o)) as [st1 l1] eqn:Eb. cbn [snd].
  destruct (ErrSpec.is_fatal _ || _); [|destruct armed; [discriminate X|]]; destruct X as (q2 & X & R2); injection X as <- _; eapply pend_eq; eauto.
Qed.
Lemma queue_get size st st' r : (2 <= size)%nat -> queue_of size st -> es_get st = Some (st', r) ->
  queue_of size st' /\ (es_count st <> 0%nat -> exists e, r = (ERR_OK, Some e) /\ pending_errors st = e :: pending_errors st').
Proof.
  intros H2 Q H. destruct (queue_rel _ _ H2 Q) as (q & reads & armed & started & -> & R). cbn [es_get] in H.
  destruct (eq_get_full size q) as [[q' [e x]]|] eqn:G; [|discriminate]. injection H as <- <-.
  assert (eq_step size q EGet = Some (q', OGet e x)) as S by (cbn [eq_step]; rewrite G; reflexivity).
  split; [eapply queue_call; eauto|]. intro C. destruct (get_rel _ _ _ _ _ H2 R) as (q2 & X & R2). rewrite S in X.
  pose proof (count_rel _ _ _ _ _ R) as K. cbn [eq_step snd] in K. cbn [es_count] in C.
  destruct (pending_errors (EsQueue size q)) as [|e0 l] eqn:P; [exfalso; injection K as K; cbn in K; congruence|].
  destruct started; [|destruct (r_fresh _ _ _ _ _ R eq_refl) as [Z _]; discriminate Z].
  cbn [ErrSpec.fifo_step negb fst snd] in *. injection X as <- -> ->. exists e0. split; [reflexivity|]. f_equal. symmetry. eapply pend_eq; eauto.
Qed.
Lemma queue_count size st : (2 <= size)%nat -> queue_of size st -> es_count st = length (pending_errors st).
Proof. intros H2 Q. destruct (queue_rel _ _ H2 Q) as (q & reads & armed & started & E0 & R). pose proof (count_rel _ _ _ _ _ R) as K. cbn in K. rewrite E0 at 1. cbn. congruence. Qed.

(** *** operations *)
Section Ann.
Variable E : env.
Variable size : nat.
Hypothesis H2 : (2 <= size)%nat.

(** [g] tells whether the operation may take errors out *)
Definition GR (g : bool) (s s' : node) : Prop := queue_of size (n_err s) ->
  queue_of size (n_err s') /\ (g = false -> exists news, pending_errors (n_err s') = pending_errors (n_err s) ++ news).
#[local] Instance pre_GR g : Pre (GR g).
Proof.
  split.
  - intros s Q. split; auto. intros _. exists []. rewrite app_nil_r. reflexivity.
  - intros a c d A C Q. destruct (A Q) as [Q1 N1]. destruct (C Q1) as [Q2 N2]. split; auto. intro G. destruct (N1 G) as [n1 P1]. destruct (N2 G) as [n2 P2].
    exists (n1 ++ n2). rewrite P2, P1, app_assoc. reflexivity.
Qed.
Lemma GR_same g s s' : n_err s' = n_err s -> GR g s s'.
Proof. intros Z Q. rewrite Z. split; auto. intros _. exists []. rewrite app_nil_r. reflexivity. Qed.
Lemma GR_report g a b0 d : pres (GR g) (report a b0 d).
Proof.
  intros s x s' H Q. unfold report in H. destruct (syserr_send (n_err s) a b0 d) as [[st r]|] eqn:S; [|discriminate]. injection H as _ <-.
  destruct (queue_send _ _ _ _ _ _ _ H2 Q S) as [Q' P]. split; auto.
Qed.
Lemma GR_report_if g e : pres (GR g) (report_if e).
Proof. unfold report_if. destruct (e =? ERR_OK); [pres_tac|]. refine (pres_bind _ _ _ _ _); [pres_tac|]. intro. apply GR_report. Qed.
Lemma GR_get_error : pres (GR true) get_error.
Proof.
  intros s x s' H Q. unfold get_error in H. destruct (es_get (n_err s)) as [[st [e r]]|] eqn:S; [|discriminate]. injection H as _ <-.
  destruct (queue_get _ _ _ _ H2 Q S) as [Q' _]. split; [exact Q'|discriminate].
Qed.
Ltac gr_leaf := apply GR_same; reflexivity.
Ltac gr1 := simple apply GR_report || simple apply GR_report_if || simple apply GR_get_error || (simple apply pres_call_rx; [typeclasses eauto|intros; gr_leaf; fail]) || pres_tac1.
Ltac gr := repeat gr1; try (gr_leaf; fail).
Lemma GR_define_obj g x1 x2 x3 x4 x5 x6 x7 : pres (GR g) (define_obj E x1 x2 x3 x4 x5 x6 x7).
Proof. unfold define_obj, hw_define. gr. Qed.
Lemma GR_silent g p st : pres (GR g) (set_silent_awake E p st).
Proof. unfold set_silent_awake, sync_off, sync_on, tx_data_on, tx_data_off. gr. Qed.
Lemma GR_part g t on : pres (GR g) (set_active_critical t on).
Proof. unfold set_active_critical, sync_off, sync_on, tx_data_on, tx_data_off. gr. Qed.
Lemma GR_shared g x1 x2 x3 x4 : pres (GR g) (define_shared E x1 x2 x3 x4).
Proof. unfold define_shared, get_async_ctrl_obj, next_free. repeat (simple apply GR_define_obj || simple apply GR_silent || gr1); gr_leaf. Qed.
Lemma GR_cnfg g x1 x2 x3 : pres (GR g) (tx_data_cnfg E x1 x2 x3).
Proof. unfold tx_data_cnfg. gr. Qed.
Lemma GR_nr_ids g t n a : pres (GR g) (change_nr_ids E t n a).
Proof. unfold change_nr_ids. repeat (simple apply GR_define_obj || simple apply GR_shared || simple apply GR_cnfg || gr1); gr_leaf. Qed.
Lemma GR_set_module g i d nr rxs txs : pres (GR g) (set_module E i d nr rxs txs).
Proof. unfold set_module, rx_slot, rx_data_cnfg, next_free. repeat (simple apply GR_define_obj || simple apply GR_shared || simple apply GR_cnfg || gr1); gr_leaf. Qed.
Lemma GR_baud g r : pres (GR g) (set_baudrate r).
Proof.
  unfold set_baudrate. refine (pres_bind _ _ _ _ _); [pres_tac|intro tab]. generalize ERR_OK.
  induction tab as [|x tab IH]; intro e; cbn [set_baudrate_loop]; [pres_tac|].
  destruct (r =? x); [|apply IH]. unfold hw_set_baudrate. repeat (simple apply IH || gr1); gr_leaf.
Qed.
Lemma GR_mode g m : pres (GR g) (set_node_mode m).
Proof. unfold set_node_mode. gr. Qed.
Lemma GR_sys_tx g nr data : pres (GR g) (sys_tx nr data).
Proof. unfold sys_tx, send_msg. gr. Qed.
Lemma GR_one_error : pres (GR true) send_one_error.
Proof. unfold send_one_error, send_error. repeat (simple apply GR_sys_tx || gr1); gr_leaf. Qed.
Lemma GR_drain n : pres (GR true) (drain_errors n).
Proof. induction n as [|n IH]; cbn [drain_errors]; repeat (simple apply IH || simple apply GR_one_error || gr1). Qed.
Lemma GR_sys_cmd g bc p nr src : cmd_of (b src 0) <> CStatus -> pres (GR g) (sys_cmd E bc p nr src).
Proof.
  intro Ns. unfold sys_cmd. refine (pres_bind _ _ _ _ _); [pres_tac|intro n].
  destruct (cmd_of (b src 0)); [exfalso; apply Ns; reflexivity|..].
  all: unfold sys_silent_awake, change_nr, change_type, set_cycle_time, status_ackn, version_ackn.
  all: repeat (simple apply GR_mode || simple apply GR_baud || simple apply GR_nr_ids || simple apply GR_silent || simple apply GR_cnfg || simple apply GR_sys_tx || gr1); gr_leaf.
Qed.
Lemma GR_sys_any bc p nr src : pres (GR true) (sys_cmd E bc p nr src).
Proof.
  unfold sys_cmd, sys_silent_awake, change_nr, change_type, set_cycle_time, status_ackn, version_ackn.
  repeat (simple apply GR_mode || simple apply GR_baud || simple apply GR_nr_ids || simple apply GR_silent || simple apply GR_cnfg || simple apply GR_sys_tx || simple apply GR_drain || gr1); gr_leaf.
Qed.
Lemma GR_send g : pres (GR g) (send_process_data E).
Proof.
  unfold send_process_data. refine (pres_bind _ _ _ _ _); [pres_tac|intro reg]. generalize (JUNK E) 0%nat reg SEND_FUEL. clear reg.
  intros can cur reg fuel. revert can cur reg. induction fuel as [|f IH]; intros; cbn [send_loop]; [intros s x s' H; discriminate|].
  unfold send_one, tx_data_main, send_msg. repeat (simple apply IH || gr1); gr_leaf.
Qed.
Lemma GR_check g n : forall first now, pres (GR g) (check_modules n first now).
Proof. induction n as [|n IH]; intros; cbn [check_modules]; unfold check_module; repeat (simple apply IH || gr1); gr_leaf. Qed.
Lemma GR_step_any o : pres (GR true) (step E o).
Proof.
  destruct o; cbn [step]; unfold ignore, set_silent_awake_type_nr, change_type_add, set_image_cb, trigger_period, get_period, set_cycle_time, add_module.
  all: try (repeat (simple apply GR_mode || simple apply GR_baud || simple apply GR_nr_ids || simple apply GR_silent || simple apply GR_part || simple apply GR_set_module || gr1); gr_leaf; fail).
  unfold frame_rx, on_data, rx_data_main, on_process, on_sys, sys_msg_rx, process_request_rx, check_image, clear_image, rx_process_main.
  repeat (simple apply GR_sys_any || simple apply GR_check || simple apply GR_send || simple apply GR_one_error || gr1); gr_leaf.
Qed.
Lemma GR_step_other o : match o with OpFrame _ _ _ _ _ => False | _ => True end -> pres (GR false) (step E o).
Proof.
  destruct o; intro N; try contradiction; cbn [step]; unfold ignore, set_silent_awake_type_nr, change_type_add, set_image_cb, trigger_period, get_period, set_cycle_time, add_module.
  all: repeat (simple apply GR_mode || simple apply GR_baud || simple apply GR_nr_ids || simple apply GR_silent || simple apply GR_part || simple apply GR_set_module || gr1); gr_leaf.
Qed.
Lemma GR_data mo id dlc data : pres (GR false) (on_data E mo id dlc data).
Proof. unfold on_data, rx_data_main. gr. Qed.
Lemma GR_run ops : forall s s', run E ops s = Ret (tt, s') -> GR true s s'.
Proof.
  induction ops as [|o ops IH]; intros s s' H; cbn [run] in H; [apply ret_inv in H; destruct H as [_ ->]; apply pre_refl|].
  mbind H as u s1 H1. eapply pre_trans; [eapply GR_step_any, H1|eapply IH, H].
Qed.
Lemma GR_init rate : pres (GR true) (can_init E rate).
Proof. unfold can_init, config_init, msg_objs_init, sys_init, sync_init. repeat (simple apply GR_define_obj || gr1); gr_leaf. Qed.

(** *** what one operation does with the pending errors *)
Hypothesis HE : env_ok E.
Definition took (o : op) (s s' : node) : Prop := exists k news,
  pending_errors (n_err s') = skipn k (pending_errors (n_err s)) ++ news /\ (forall e, In e (firstn k (pending_errors (n_err s))) -> announces s s' e) /\
  (is_request o = true -> pending_errors (n_err s) <> [] -> (1 <= k)%nat) /\ (is_request o = true -> (k <= 1)%nat) /\ (is_request o = false -> is_status E o = false -> k = 0%nat).
Lemma took_none o s s' : is_request o = false -> GR false s s' -> queue_of size (n_err s) -> took o s s'.
Proof.
  intros Nr G Q. destruct (G Q) as [_ P]. destruct (P eq_refl) as [news N]. exists 0%nat, news. cbn [skipn firstn]. split; auto. split; [intros e []|]. split; [congruence|]. split; [congruence|auto].
Qed.
Lemma reports_queue nr st st' : reports nr st st' -> queue_of size st -> queue_of size st' /\ exists news, pending_errors st' = pending_errors st ++ news.
Proof.
  induction 1 as [st|st st1 st2 e r Ne S _ IH]; intro Q; [split; auto; exists []; rewrite app_nil_r; reflexivity|].
  destruct (queue_send _ _ _ _ _ _ _ H2 Q S) as [Q1 [n1 P1]]. destruct (IH Q1) as [Q2 [n2 P2]]. split; auto. exists (n1 ++ n2). rewrite P2, P1, app_assoc. reflexivity.
Qed.
Lemma took_request mo id dlc data now pre s s' : reached E pre s -> numbers_ok s -> queue_of size (n_err s) -> (mo =? MO_PROCESS)%nat = true ->
  step E (OpFrame mo id dlc data now) s = Ret (tt, s') -> took (OpFrame mo id dlc data now) s s'.
Proof.
  intros R Hn Q Hm H. assert (0 < length (tab_of s))%nat as Hl by (pose proof (WF_reached E _ _ R) as [[Wl _] _]; unfold tab_of; rewrite Wl; apply HE).
  eapply step_request in H; [|exact Hm|eapply HwI_reached, R]. unfold on_process in H.
  mbind H as u1 s1 H1. apply mute_request in H1. mbind H as u2 s2 H3. apply mute_check in H3. destruct H1 as (C1 & _ & E1 & m1 & L1 & _). destruct H3 as (C2 & _ & E2 & m2 & L2 & _).
  rewrite C1 in C2. rewrite E1 in E2. rewrite L1, <- app_assoc in L2. set (n2 := m1 ++ m2) in L2. clearbody n2. clear s1 C1 E1 L1.
  mbind H as u3 s3 H3. apply send_process_cyc in H3.
  mbind H as u4 s4 H4. apply mute_main in H4. destruct H4 as (C4 & _ & E4 & n4 & L4 & _). mbind H as c s0 H0. apply gets_inv in H0. destruct H0 as [-> ->].
  destruct H3 as (O3 & R3 & n3 & L3 & _). assert (n_cfg s4 = n_cfg s) as C by (destruct O3 as (O3 & _); congruence). rewrite E2 in R3.
  destruct (reports_queue _ _ _ R3 Q) as [Q3 [news P3]]. rewrite <- E4 in Q3, P3.
  assert (n_log s4 = n_log s ++ (n2 ++ n3 ++ n4)) as L by (rewrite L4, L3, L2, <- !app_assoc; reflexivity).
  unfold err_count in H. destruct (Nat.eqb_spec (es_count (n_err s4)) 0) as [Z|Z].
  - rewrite Z in H. change (0 <? 0)%nat with false in H. cbv iota in H. apply ret_inv in H. destruct H as [_ ->].
    rewrite (queue_count _ _ H2 Q3), P3, app_length in Z. exists 0%nat, news. cbn [skipn firstn]. split; auto. split; [intros e []|].
    split; [|split; [auto|auto]]. intros _ Ne. destruct (pending_errors (n_err s)); [congruence|cbn in Z; lia].
  - assert ((0 <? es_count (n_err s4))%nat = true) as Z1 by (apply Nat.ltb_lt; clear -Z; lia). rewrite Z1 in H. apply send_one_error_inv in H.
    + destruct H as (O5 & st & e & r & G & Er & n5 & L5 & S5). destruct (queue_get _ _ _ _ H2 Q3 G) as [Q5 P5]. destruct (P5 Z) as (x & X & P6). injection X as -> ->.
      change (ERR_OK =? ERR_OK) with true in S5. cbv iota in S5. cbn [flat_map] in S5. rewrite app_nil_r in S5. rewrite P6 in P3. 
      destruct (pending_errors (n_err s)) as [|e0 l] eqn:P.
      * cbn [app] in P3. exists 0%nat, (pending_errors st). rewrite P, Er. cbn [skipn firstn app]. split; auto. split; [intros e []|]. split; [congruence|]. split; auto.
      * cbn [app] in P3. injection P3 as -> P3. exists 1%nat, news. rewrite P, Er. cbn [skipn firstn]. split; auto. split; [|split; [intros; apply le_n|split; [intros; apply le_n|intro Z0; cbn [is_request] in Z0; congruence]]].
        intros e [<-|[]]. exists ((n2 ++ n3 ++ n4) ++ n5). rewrite L5, L, <- !app_assoc. split; [reflexivity|]. rewrite !sent_app. apply incl_appr, incl_appr, incl_appr. rewrite S5, (error_tx_cfg s s4 _ C). apply incl_refl.
    + unfold tab_of. rewrite C. exact Hl.
    + intros i Hi. unfold modat, tab_of in *. rewrite C in *. apply Hn, Hi.
Qed.
Lemma took_cmd o bc p nr src s e s1 : is_request o = false -> (0 < length (tab_of s))%nat -> numbers_ok s -> queue_of size (n_err s) -> sys_cmd E bc p nr src s = Ret (e, s1) ->
  exists k news, pending_errors (n_err s1) = skipn k (pending_errors (n_err s)) ++ news /\ (forall x, In x (firstn k (pending_errors (n_err s))) -> announces s s1 x) /\ (b src 0 <> 1 -> k = 0%nat).
Proof.
  intros Nr Hl Hn Q H. destruct (cmd_of (b src 0)) eqn:Ec.
  2-15: assert (cmd_of (b src 0) <> CStatus) as Ns by (rewrite Ec; discriminate); destruct (GR_sys_cmd false _ _ _ _ Ns _ _ _ H Q) as [_ P]; destruct (P eq_refl) as [news P'];
        exists 0%nat, news; cbn [skipn firstn]; split; [exact P'|split; [intros x []|auto]].
  unfold sys_cmd in H. rewrite Ec in H. mbind H as n s0 H0. apply gets_inv in H0. destruct H0 as [-> ->].
  mbind H as z s0 H0. apply gets_inv in H0. destruct H0 as [-> ->]. mbind H as u s2 H3.
  assert (n_cfg s2 = n_cfg s /\ n_err s2 = n_err s /\ exists n2, n_log s2 = n_log s ++ n2) as (C2 & E2 & n2 & L2).
  { destruct (z_first (n_sys s)); [apply ret_inv in H3; destruct H3 as [_ ->]; repeat split; exists []; rewrite app_nil_r; reflexivity|].
    mbind H3 as u3 s3 H4. apply modify_inv in H4. unfold emit in H3. apply modify_inv in H3. subst s2 s3. repeat split. eexists. reflexivity. }
  unfold andthen in H. mbind H as e3 s3 H4.
  pose (K := fun s s' => n_cfg s' = n_cfg s /\ n_err s' = n_err s /\ exists n2, n_log s' = n_log s ++ n2).
  assert (Pre K) as PK.
  { split; [intro x; repeat split; exists []; rewrite app_nil_r; reflexivity|]. intros x y w (A1 & A2 & m1 & A3) (B1 & B2 & m2 & B3).
    repeat split; try congruence. exists (m1 ++ m2). rewrite B3, A3, app_assoc. reflexivity. }
  assert (forall p, pres K (status_ackn E p)) as KP.
  { intro q. unfold status_ackn, sys_tx, send_msg. pres_tac; repeat split; try (eexists; reflexivity); exists []; rewrite app_nil_r; reflexivity. }
  assert (K s2 s3) as (C3 & E3 & n3 & L3).
  { destruct bc; [exact (pres_for_err K _ 0 _ KP _ _ _ H4)|exact (KP _ _ _ _ H4)]. }
  destruct (e3 =? ERR_OK).
  - mbind H as c s4 H5. apply gets_inv in H5. destruct H5 as [-> ->]. mbind H as u5 s5 H5. apply ret_inv in H. destruct H as [_ ->].
    assert (n_cfg s3 = n_cfg s) as C by congruence. assert (n_err s3 = n_err s) as Er by congruence.
    apply drain_inv in H5.
    + destruct H5 as (_ & Z & n5 & L5 & S5). unfold err_count in S5. rewrite Er in S5. fold (pending_errors (n_err s)) in S5.
      exists (length (pending_errors (n_err s))), (pending_errors (n_err s5)). rewrite skipn_all, firstn_all. split; [reflexivity|]. split; [|intro Nb; apply cmd_status in Ec; congruence].
      intros x Ix. exists (n2 ++ n3 ++ n5). split; [rewrite L5, L3, L2, !app_assoc; reflexivity|]. rewrite !sent_app, S5. apply incl_appr, incl_appr.
      intros f If. apply in_flat_map. exists x. split; auto. rewrite (error_tx_cfg s s3 _ C). exact If.
    + unfold tab_of. rewrite C. exact Hl.
    + intros i Hi. unfold modat, tab_of in *. rewrite C in *. apply Hn, Hi.
  - apply ret_inv in H. destruct H as [_ ->]. exists 0%nat, []. cbn [skipn firstn]. rewrite app_nil_r, E3, E2. split; [reflexivity|split; [intros x []|auto]].
Qed.
Lemma took_sys o id dlc data s s' : is_request o = false -> (is_status E o = false -> b data 0 <> 1) -> (0 < length (tab_of s))%nat -> numbers_ok s -> queue_of size (n_err s) -> on_sys E id dlc data s = Ret (tt, s') -> took o s s'.
Proof.
  intros Nr Ns Hl Hn Q H. rewrite on_sys_eq in H. mbind H as e s1 H1.
  assert (exists k news, pending_errors (n_err s1) = skipn k (pending_errors (n_err s)) ++ news /\ (forall x, In x (firstn k (pending_errors (n_err s))) -> announces s s1 x) /\ (b data 0 <> 1 -> k = 0%nat)) as (k & news & P & A & K).
  { assert (s1 = s \/ exists bc p nr, sys_cmd E bc p nr data s = Ret (e, s1)) as [->|(bc & p & nr & H3)].
    { unfold sys_msg_rx in H1. destruct (negb (dlc =? 8)); [apply ret_inv in H1; left; apply H1|]. destruct (_ =? NR_BROADCAST).
      - mbind H1 as n s0 H0. apply gets_inv in H0. destruct H0 as [-> ->]. destruct (nmod s =? 0)%nat; [apply ret_inv in H1; left; apply H1|right; eauto].
      - mbind H1 as t s0 H0. apply gets_inv in H0. destruct H0 as [-> ->]. destruct (find_nr _ _ _); [right; eauto|apply ret_inv in H1; left; apply H1]. }
    - exists 0%nat, []. cbn [skipn firstn]. rewrite app_nil_r. split; [reflexivity|split; [intros x []|auto]].
    - eapply took_cmd; eauto. }
  assert (queue_of size (n_err s1)) as Q1.
  { assert (pres (GR true) (sys_msg_rx E (id_nr id) dlc data)) as X by (unfold sys_msg_rx; repeat (simple apply GR_sys_any || gr1)). apply (X _ _ _ H1 Q). }
  destruct (GR_report_if false _ _ _ _ H Q1) as [_ N]. destruct (N eq_refl) as [n2 P2]. exists k, (news ++ n2). rewrite P2, P, app_assoc. split; [reflexivity|]. split; [|split; [congruence|split; [congruence|auto]]].
  intros x Ix. destruct (A x Ix) as (new & L & I). exists new. split; [|exact I]. rewrite <- L. refine (pres_report_if (fun s s' => n_log s' = n_log s) e _ _ _ _ H). reflexivity.
Qed.
Lemma took_step pre o s s' : Forall (plain E) pre -> reached E pre s -> queue_of size (n_err s) -> step E o s = Ret (tt, s') -> took o s s'.
Proof.
  intros F R Q H. assert (numbers_ok s) as Hn by (apply (TxI_numbers E); [eapply WF_reached; eauto|eapply TxI_reached; eauto]).
  assert (0 < length (tab_of s))%nat as Hl by (pose proof (WF_reached E _ _ R) as [[Wl _] _]; unfold tab_of; rewrite Wl; apply HE).
  destruct o; try (apply took_none; [reflexivity|match type of H with step E ?o _ = _ => exact (GR_step_other o I _ _ _ H) end|exact Q]; fail).
  destruct (mo =? MO_PROCESS)%nat eqn:Mp; [eapply took_request; eauto|]. destruct (sys_mo E mo) eqn:Ms.
  - apply step_sys in H; auto; [|eapply HwI_reached; eauto]. eapply took_sys; eauto. cbn [is_status]. rewrite Ms. cbn [andb]. apply N.eqb_neq.
  - apply took_none; auto. cbn [step] in H. unfold frame_rx in H. mbind H as sy s0 H0. apply gets_inv in H0. destruct H0 as [-> ->]. mbind H as u s1 H1.
    rewrite Mp in H. mbind H as u2 s2 H3. apply ret_inv in H3. destruct H3 as [_ ->]. unfold sys_mo in Ms. rewrite Ms in H. apply ret_inv in H. destruct H as [_ ->].
    destruct (is_sync_mo mo s); [eapply GR_data; eauto|apply ret_inv in H1; destruct H1 as [_ ->]; apply (@pre_refl _ (pre_GR false))].
Qed.
Lemma announced_run ops : forall pre s s' k e, Forall (plain E) (pre ++ ops) -> reached E pre s -> queue_of size (n_err s) -> run E ops s = Ret (tt, s') ->
  nth_error (pending_errors (n_err s)) k = Some e -> (k < requests ops)%nat -> announced_within E k ops s e.
Proof.
  induction ops as [|o ops IH]; intros pre s s' k e F R Q H Nk Lk; [cbn in Lk; lia|].
  apply run_cons in H. destruct H as (s1 & H1 & H). assert (Forall (plain E) pre) as Fp by (apply Forall_app in F; apply F).
  destruct (took_step _ _ _ _ Fp R Q H1) as (j & news & P & A & J & _). destruct (Nat.lt_ge_cases k j) as [L|L].
  - exists [], o, ops, s, s1. split; [reflexivity|]. split; [cbn; lia|]. split; [reflexivity|]. split; [exact H1|]. apply A.
    apply (nth_error_In _ k). rewrite <- Nk. revert L. clear. revert k. generalize (pending_errors (n_err s)). induction j as [|j IH]; intros l k L; [lia|]. destruct l, k; cbn; auto. apply IH. lia.
  - assert (nth_error (pending_errors (n_err s1)) (k - j) = Some e) as N1.
    { rewrite P. assert (nth_error (skipn j (pending_errors (n_err s))) (k - j) = Some e) as X.
      { rewrite <- Nk. replace k with (j + (k - j))%nat at 2 by lia. clear. generalize (pending_errors (n_err s)) (k - j)%nat. induction j as [|j IH]; intros l i; [reflexivity|]. destruct l; cbn; auto. destruct i; reflexivity. }
      rewrite nth_error_app1; [exact X|]. apply nth_error_Some. congruence. }
    assert (pending_errors (n_err s) <> []) as Ne by (intro Z; rewrite Z in Nk; destruct k; discriminate).
    assert (requests (o :: ops) = (if is_request o then 1 else 0) + requests ops)%nat as Rq by (unfold requests; cbn [filter]; destruct (is_request o); reflexivity).
    assert (k - j < requests ops)%nat as L1. { destruct (is_request o) eqn:Ro; [specialize (J eq_refl Ne)|]; lia. }
    assert (pre ++ o :: ops = (pre ++ [o]) ++ ops) as Ap by (rewrite <- app_assoc; reflexivity). rewrite Ap in F.
    destruct (IH (pre ++ [o]) s1 s' (k - j)%nat e F (reached_app _ _ _ _ _ R H1) (proj1 (GR_step_any _ _ _ _ H1 Q)) H N1 L1) as (a & o' & c & t & t' & X & Y & Ha & Ho & An).
    exists (o :: a), o', c, t, t'. split; [cbn; congruence|]. split.
    + assert (requests (o :: a) = (if is_request o then 1 else 0) + requests a)%nat as Rr by (unfold requests; cbn [filter]; destruct (is_request o); reflexivity).
      rewrite Rr. destruct (is_request o) eqn:Ro; [specialize (J eq_refl Ne)|]; lia.
    + split; [eapply run_cons_intro; eauto|]. split; [exact Ho|exact An].
Qed.
End Ann.
