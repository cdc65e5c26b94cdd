(** The synchronous process: what a process request and every other operation do to the evaluation state. *)
From Verif Require Import Words WordsFacts ErrModel NodeModel NodeLib NodeInv NodeSpec NodeHw NodeCnt.

Definition quiet_ev (e : event) : bool := match e with EvVerdict _ _ _ _ | EvImage _ _ => false | _ => true end.
Definition evq (s s' : node) : Prop := exists new, n_log s' = n_log s ++ new /\ forallb quiet_ev new = true.
Definition cyc_obs (s : node) :=
  let y := n_sync s in (y_pr_flag y, y_pr_cnt y, y_pr_dlc y, y_ts y, y_tv y, y_tvm y).
Definition QR (s s' : node) : Prop := evq s s' /\ cyc_obs s' = cyc_obs s.
Definition QC (s s' : node) : Prop := QR s s' /\ y_cnt (n_sync s') = y_cnt (n_sync s).
(** like QC, and everything else of the synchronous state but the first-request flag, and the configuration *)
Definition QP (s s' : node) : Prop :=
  evq s s' /\ set_y_first (n_sync s') false = set_y_first (n_sync s) false /\ n_cfg s' = n_cfg s.

#[export] Instance pre_evq : Pre evq.
Proof.
  split.
  - intro s. exists []. rewrite app_nil_r. auto.
  - intros a b c (l1 & H1 & Q1) (l2 & H2 & Q2). exists (l1 ++ l2). rewrite H2, H1, app_assoc, forallb_app, Q1, Q2. auto.
Qed.
#[export] Instance pre_QR : Pre QR.
Proof. split; [intro; split; [apply pre_refl|reflexivity] | intros a b c [A1 A2] [B1 B2]; split; [eapply pre_trans; eauto|congruence]]. Qed.
#[export] Instance pre_QC : Pre QC.
Proof. split; [intro; split; [apply pre_refl|reflexivity] | intros a b c [A1 A2] [B1 B2]; split; [eapply pre_trans; eauto|congruence]]. Qed.
#[export] Instance pre_QP : Pre QP.
Proof. split; [intro; split; [apply pre_refl|auto] | intros a b c (A1 & A2 & A3) (B1 & B2 & B3); split; [eapply pre_trans; eauto|split; congruence]]. Qed.

Lemma evq_one s s' e : quiet_ev e = true -> n_log s' = n_log s ++ [e] -> evq s s'.
Proof. intros Q H. exists [e]. cbn. rewrite Q. auto. Qed.
Lemma evq_none s s' : n_log s' = n_log s -> evq s s'.
Proof. intro H. exists []. rewrite app_nil_r. auto. Qed.

Lemma QP_QC s s' : QP s s' -> QC s s'.
Proof.
  intros (A & B & C). assert (cyc_obs s' = cyc_obs s /\ y_cnt (n_sync s') = y_cnt (n_sync s)) as [D F].
  { unfold cyc_obs. destruct (n_sync s), (n_sync s'). cbn in *. injection B as -> -> -> -> -> -> -> -> -> -> -> -> -> -> ->. auto. }
  repeat split; auto.
Qed.

Lemma verdicts_app a b : verdicts (a ++ b) = verdicts a ++ verdicts b.
Proof. induction a as [|[] a IH]; cbn; auto. rewrite IH. reflexivity. Qed.
Lemma image_hooks_app a b : image_hooks (a ++ b) = (image_hooks a + image_hooks b)%nat.
Proof. induction a as [|[] a IH]; cbn; auto. Qed.
Lemma last_image_app a b acc : last_image (a ++ b) acc = last_image b (last_image a acc).
Proof. revert acc. induction a as [|[] a IH]; intro acc; cbn; auto. Qed.
Lemma last_valid_app p a b acc : last_valid p (a ++ b) acc = last_valid p b (last_valid p a acc).
Proof. revert acc. induction a as [|[| ? [] ? ? | | | | | | | | |] a IH]; intro acc; cbn; auto. Qed.
Lemma quiet_verdicts l : forallb quiet_ev l = true -> verdicts l = [].
Proof. induction l as [|[] l IH]; cbn; auto; discriminate. Qed.
Lemma quiet_hooks l : forallb quiet_ev l = true -> image_hooks l = 0%nat.
Proof. induction l as [|[] l IH]; cbn; auto; discriminate. Qed.
Lemma quiet_last_image l acc : forallb quiet_ev l = true -> last_image l acc = acc.
Proof. induction l as [|[] l IH]; cbn; auto; discriminate. Qed.
Lemma quiet_last_valid p l acc : forallb quiet_ev l = true -> last_valid p l acc = acc.
Proof. induction l as [|[] l IH]; cbn; auto; discriminate. Qed.

Section Sync.
Variable E : env.

Ltac qc_leaf := first
  [ split; [split; [first [apply evq_none; reflexivity | eapply evq_one; [|reflexivity]; reflexivity]|reflexivity]|reflexivity] ].

Lemma qc_on_sys id dlc data : pres QC (on_sys E id dlc data).
Proof.
  apply (pres_on_sys E QC (fun e => quiet_ev e = true)); intros; try reflexivity; try qc_leaf.
  - split; [split; [eapply evq_one; [|reflexivity]; assumption|reflexivity]|reflexivity].
  - unfold set_cycle_time. pres_tac; qc_leaf.
  - pres_tac; qc_leaf.
Qed.

Ltac qp_leaf := first
  [ split; [first [apply evq_none; reflexivity | eapply evq_one; [|reflexivity]; reflexivity]|split; reflexivity] ].
(** send_loop etc. *)
Lemma qp_send_msg a b c : pres QP (send_msg a b c).
Proof. unfold send_msg. pres_tac; qp_leaf. Qed.
Lemma qp_send_process : pres QP (send_process_data E).
Proof.
  unfold send_process_data. refine (pres_bind _ _ _ _ _); [pres_tac|intro reg]. generalize (JUNK E) 0%nat reg SEND_FUEL. clear.
  intros can cur reg fuel. revert can cur reg. induction fuel as [|f IH]; intros; cbn [send_loop]; [apply pres_hang|].
  unfold send_one, tx_data_main. repeat (simple apply IH || simple apply qp_send_msg || pres_tac1); qp_leaf.
Qed.
Lemma qp_one_error : pres QP send_one_error.
Proof. unfold send_one_error, send_error, sys_tx. repeat (simple apply qp_send_msg || pres_tac1); qp_leaf. Qed.
Lemma qp_request : pres QP process_request_rx.
Proof. unfold process_request_rx. pres_tac; qp_leaf. Qed.

(** *** a data frame *)
Lemma find_slot_owner tab mo : find_slot tab mo = option_map snd (find (fun e => (fst e =? mo)%nat) tab).
Proof. induction tab as [|[m p] t IH]; cbn; auto. destruct (m =? mo)%nat; auto. Qed.
Lemma land3 id : N.land id 3 = id mod 4.
Proof. change 3 with (N.ones 2). rewrite N.land_ones. reflexivity. Qed.

Lemma get2_set2 l i j v i' j' : rows (MAXM E) l -> (i < MAXM E)%nat -> (j < NOBJ)%nat ->
  get2 (set2 l i j v) i' j' = if (i' =? i)%nat && (j' =? j)%nat then v else get2 l i' j'.
Proof.
  intros [Hl Hr] Hi Hj. unfold get2, set2.
  assert (length (nth i l []) = NOBJ) as Hrow. { rewrite Forall_forall in Hr. apply Hr, nth_In. lia. }
  destruct (Nat.eqb_spec i' i) as [->|Ni]; cbn [andb].
  - rewrite nth_set_nth_same by lia. destruct (Nat.eqb_spec j' j) as [->|Nj].
    + rewrite nth_set_nth_same by lia. reflexivity.
    + rewrite nth_set_nth_other by lia. reflexivity.
  - rewrite nth_set_nth_other by lia. reflexivity.
Qed.

(** the exact effect of an accepted or refused data frame on the application memory and the counters *)
Definition accepts (s : node) (pos : nat) (id dlc : N) : bool :=
  let o := rxat (modat s pos) (N.to_nat (id mod 4)) in
  negb (CHK E) || ((rx_nr id =? m_nr (modat s pos)) && (dlc =? r_dlc_s o)).

Lemma rx_data_main_inv pos id dlc can s e s' : rx_data_main E pos id dlc can s = Ret (e, s') ->
  let obj := N.to_nat (id mod 4) in let o := rxat (modat s pos) obj in
  if accepts s pos id dlc then
    exists g app, r_conv_s o = Some g /\ nth_error (n_mem s) (r_addr o) = Some app /\ e = snd (g can app dlc) /\
      s' = upd_sync (fun y => set_y_cnt y (set2 (y_cnt y) pos obj (u16 (get2 (y_cnt y) pos obj + 1))))
             (set_n_mem s (set_nth (n_mem s) (r_addr o) (fst (g can app dlc))))
  else s' = s /\ e = (if rx_nr id =? m_nr (modat s pos) then E_RX_WRONG_DLC else E_RX_WRONG_NR).
Proof.
  intro H. unfold rx_data_main in H. rewrite land3 in H. cbn zeta in *. unfold accepts. cbn zeta.
  set (obj := N.to_nat (id mod 4)) in *. mbind H as m s0 H0. apply gets_inv in H0. destruct H0 as [-> ->].
  set (o := rxat (modat s pos) obj) in *.
  destruct (CHK E); cbn [negb orb andb] in *.
  - destruct (rx_nr id =? m_nr (modat s pos)) eqn:En; cbn [negb andb] in *; [|minv_all; auto].
    destruct (dlc =? r_dlc_s o) eqn:Ed; cbn [negb] in *; [|minv_all; auto].
    mbind H as e1 s1 H1. mbind H as u s2 H2. apply modify_inv in H2. apply ret_inv in H. destruct H as [-> ->].
    unfold call_rx in H1. destruct (r_conv_s o) as [g|]; [|discriminate]. mbind H1 as mem s3 H3. apply gets_inv in H3. destruct H3 as [-> ->].
    destruct (nth_error (n_mem s) (r_addr o)) as [app|]; [|discriminate]. exists g, app.
    destruct (g can app dlc) as [app' e'] eqn:Eg. minv_all. auto.
  - mbind H as e1 s1 H1. mbind H as u s2 H2. apply modify_inv in H2. apply ret_inv in H. destruct H as [-> ->].
    unfold call_rx in H1. destruct (r_conv_s o) as [g|]; [|discriminate]. mbind H1 as mem s3 H3. apply gets_inv in H3. destruct H3 as [-> ->].
    destruct (nth_error (n_mem s) (r_addr o)) as [app|]; [|discriminate]. exists g, app.
    destruct (g can app dlc) as [app' e'] eqn:Eg. minv_all. auto.
Qed.

Lemma on_data_inv mo id dlc can s s' : on_data E mo id dlc can s = Ret (tt, s') ->
  match owner s mo with
  | Some pos => exists e, rx_data_main E pos id dlc can s = Ret (e, s')
  | None => s' = s
  end.
Proof.
  unfold on_data. intro H. mbind H as rx s0 H0. apply gets_inv in H0. destruct H0 as [-> ->].
  rewrite find_slot_owner in H. fold (owner s mo) in H. destruct (owner s mo) as [pos|]; [|minv_all; auto].
  mbind H as e s1 H1. apply ret_inv in H. destruct H as [_ ->]. eauto.
Qed.

Lemma on_data_QR mo id dlc can s s' : on_data E mo id dlc can s = Ret (tt, s') -> QR s s'.
Proof.
  intro H. apply on_data_inv in H. destruct (owner s mo) as [p|]; [|subst; apply pre_refl].
  destruct H as [e H]. apply rx_data_main_inv in H. cbn zeta in H. destruct (accepts s p id dlc).
  - destruct H as (g & app & _ & _ & _ & ->). split; [apply evq_none; reflexivity | reflexivity].
  - destruct H as [-> _]. apply pre_refl.
Qed.

Lemma mod4_lt id : (N.to_nat (id mod 4) < NOBJ)%nat.
Proof. unfold NOBJ. pose proof (N.mod_upper_bound id 4). lia. Qed.

Lemma on_data_cnt mo id dlc can s s' pos obj : WF E s -> (pos < MAXM E)%nat ->
  on_data E mo id dlc can s = Ret (tt, s') ->
  get2 (y_cnt (n_sync s')) pos obj =
  if match owner s mo with Some p => (p =? pos)%nat | None => false end && (N.to_nat (id mod 4) =? obj)%nat && accepts s pos id dlc
  then u16 (get2 (y_cnt (n_sync s)) pos obj + 1) else get2 (y_cnt (n_sync s)) pos obj.
Proof.
  intros W Lp H. apply on_data_inv in H. destruct (owner s mo) as [p|]; [|subst; reflexivity].
  destruct H as [e H]. apply rx_data_main_inv in H. cbn zeta in H.
  assert (rows (MAXM E) (y_cnt (n_sync s))) as Hr by apply W.
  destruct (Nat.eqb_spec p pos) as [->|Np]; cbn [andb].
  - destruct (accepts s pos id dlc); [|rewrite andb_false_r; destruct H as [-> _]; reflexivity].
    destruct H as (g & app & _ & _ & _ & ->). cbn [upd_sync n_sync set_n_sync set_y_cnt y_cnt set_n_mem].
    rewrite get2_set2 by auto using mod4_lt. rewrite Nat.eqb_refl, andb_true_r, Nat.eqb_sym. cbn [andb].
    destruct (Nat.eqb_spec (N.to_nat (id mod 4)) obj) as [<-|]; reflexivity.
  - destruct (accepts s p id dlc); [|destruct H as [-> _]; reflexivity].
    destruct H as (g & app & _ & _ & _ & ->). cbn [upd_sync n_sync set_n_sync set_y_cnt y_cnt set_n_mem].
    unfold get2, set2. rewrite nth_set_nth_other by auto. reflexivity.
Qed.

(** *** every operation but a process request *)
Lemma QC_QR s s' : QC s s' -> QR s s'.
Proof. intros [H _]. exact H. Qed.

Lemma qc_other o : match o with OpFrame _ _ _ _ _ => False | _ => True end -> pres QC (step E o).
Proof.
  intro Ho. destruct o; [destruct Ho|..]; cbn [step]; unfold ignore.
  2: { refine (pres_bind _ _ _ _ _); [|intro; pres_tac1]. unfold set_silent_awake_type_nr. refine (pres_bind _ _ _ _ _); [pres_tac|intro t].
       destruct (find_type_nr _ _ _ _); [|pres_tac]. apply (pres_set_silent_awake E QC (fun e => quiet_ev e = true)); intros; try reflexivity; try qc_leaf.
       split; [split; [eapply evq_one; [|reflexivity]; assumption|reflexivity]|reflexivity]. }
  1: { refine (pres_bind _ _ _ _ _); [|intro; pres_tac1]. apply (pres_add_module E QC (fun e => quiet_ev e = true)); intros; try reflexivity; try qc_leaf.
       split; [split; [eapply evq_one; [|reflexivity]; assumption|reflexivity]|reflexivity]. }
  1: { refine (pres_bind _ _ _ _ _); [|intro; pres_tac1]. apply (pres_change_nr_ids E QC (fun e => quiet_ev e = true)); intros; try reflexivity; try qc_leaf.
       split; [split; [eapply evq_one; [|reflexivity]; assumption|reflexivity]|reflexivity]. }

  all: unfold set_image_cb, trigger_period, get_period, change_type_add, set_cycle_time, set_node_mode;
     try (solve [repeat (pres_tac1; try qc_leaf)]).
  - repeat (pres_tac1; try qc_leaf). destruct k; qc_leaf.
  - pres_tac. unfold upd_sync. destruct (_ <? _); qc_leaf.
  - refine (pres_bind _ _ _ _ _); [|intro; pres_tac1]. apply (pres_set_baudrate QC (fun e => quiet_ev e = true)); intros; try reflexivity; try qc_leaf.
    split; [split; [eapply evq_one; [|reflexivity]; assumption|reflexivity]|reflexivity].
  - refine (pres_bind _ _ _ _ _); [|intro; pres_tac1]. apply (pres_set_active_critical QC); intros; qc_leaf.
Qed.

Lemma accepts_accepted s mo id dlc data now pos obj :
  accepted E s (OpFrame mo id dlc data now) pos obj =
  is_sync_mo mo s && (match owner s mo with Some p => (p =? pos)%nat | None => false end && (N.to_nat (id mod 4) =? obj)%nat && accepts s pos id dlc).
Proof.
  cbn [accepted]. unfold accepts. cbn zeta. destruct (is_sync_mo mo s); cbn [andb]; auto.
  destruct (match owner s mo with Some p => _ | None => _ end); cbn [andb]; auto.
  destruct (Nat.eqb_spec (N.to_nat (id mod 4)) obj) as [<-|]; cbn [andb]; auto.
Qed.

Lemma step_nonreq o s s' : is_request o = false -> step E o s = Ret (tt, s') ->
  QR s s' /\ (WF E s -> forall pos obj, (pos < MAXM E)%nat ->
    get2 (y_cnt (n_sync s')) pos obj =
    if accepted E s o pos obj then u16 (get2 (y_cnt (n_sync s)) pos obj + 1) else get2 (y_cnt (n_sync s)) pos obj).
Proof.
  intros Hn H. destruct o as [mo id dlc data now|d nr rxs txs|t n st|t n a|t d rxs txs cb|v|cb|k t n cb|cb|cb|a t r|e p n|now| |t|m|r|a data|t on].
  2-19: apply qc_other in H; [|exact I]; destruct H as [H1 H2]; split; [exact H1|intros; rewrite H2; reflexivity].
  cbn [is_request] in Hn. cbn [step] in H. unfold frame_rx in H.
  mbind H as sy s0 H0. apply gets_inv in H0. destruct H0 as [-> ->]. mbind H as u s1 H1. destruct u.
  rewrite Hn in H. mbind H as u s2 H2. apply ret_inv in H2. destruct H2 as [_ ->].
  assert (QC s1 s') as Q.
  { destruct (_ || _); [|minv_all; apply pre_refl]. eapply qc_on_sys, H. }
  destruct Q as [Q1 Q2]. split.
  - destruct (is_sync_mo mo s); [|minv_all; exact Q1]. eapply pre_trans; [eapply on_data_QR, H1 | exact Q1].
  - intros W pos obj Lp. rewrite Q2, accepts_accepted. destruct (is_sync_mo mo s); cbn [andb]; [|minv_all; reflexivity].
    eapply on_data_cnt; eauto.
Qed.


Lemma run_cons o ops s r : run E (o :: ops) s = Ret r -> exists s1, step E o s = Ret (tt, s1) /\ run E ops s1 = Ret r.
Proof. cbn [run]. intro H. apply bind_inv in H. destruct H as ([] & s1 & H1 & H2). eauto. Qed.
Lemma run_app a b s r : run E (a ++ b) s = Ret r -> exists s1, run E a s = Ret (tt, s1) /\ run E b s1 = Ret r.
Proof.
  revert s. induction a as [|o a IH]; intros s H; cbn [app] in H; [exists s; auto|].
  apply run_cons in H. destruct H as (s1 & H1 & H). apply IH in H. destruct H as (s2 & H2 & H). exists s2. split; auto.
  cbn [run]. rewrite (bind_run _ _ _ _ _ H1). exact H2.
Qed.
Lemma run_cons_intro o ops s s1 r : step E o s = Ret (tt, s1) -> run E ops s1 = Ret r -> run E (o :: ops) s = Ret r.
Proof. intros H1 H2. cbn [run]. rewrite (bind_run _ _ _ _ _ H1). exact H2. Qed.
Lemma run_app_intro a b s s1 r : run E a s = Ret (tt, s1) -> run E b s1 = Ret r -> run E (a ++ b) s = Ret r.
Proof.
  revert s. induction a as [|o a IH]; intros s H1 H2; cbn [app]; [cbn in H1; injection H1 as <-; exact H2|].
  apply run_cons in H1. destruct H1 as (s2 & H3 & H1). eapply run_cons_intro; eauto.
Qed.

Lemma run_nonreq ops s s' : no_requests ops -> WF E s -> run E ops s = Ret (tt, s') ->
  QR s s' /\ forall pos obj, (pos < MAXM E)%nat -> get2 (y_cnt (n_sync s)) pos obj < 65536 ->
    get2 (y_cnt (n_sync s')) pos obj =
    (get2 (y_cnt (n_sync s)) pos obj + N.of_nat (receptions E s ops pos obj)) mod 65536.
Proof.
  revert s. induction ops as [|o ops IH]; intros s Hn W H.
  - cbn in H. injection H as <-. split; [apply pre_refl|]. intros. cbn [receptions]. rewrite N.mod_small; lia.
  - apply run_cons in H. destruct H as (s1 & H1 & H). unfold no_requests in *. cbn [forallb] in Hn. apply andb_prop in Hn. destruct Hn as [Ho Hn].
    apply negb_true_iff in Ho. assert (WF E s1) as W1 by (eapply wf_step; eauto).
    destruct (IH _ Hn W1 H) as [Q IHc]. destruct (step_nonreq _ _ _ Ho H1) as [Q1 C1].
    split; [eapply pre_trans; eauto|]. intros pos obj Lp Lc. cbn [receptions]. rewrite H1.
    specialize (C1 W pos obj Lp). rewrite IHc; auto.
    + rewrite C1. destruct (accepted E s o pos obj).
      * unfold u16. rewrite N.add_mod_idemp_l by lia. f_equal. lia.
      * reflexivity.
    + rewrite C1. destruct (accepted E s o pos obj); [unfold u16; apply N.mod_upper_bound; lia | exact Lc].
Qed.

(** *** a process request *)
Definition ev_of (s : node) (now : N) (p : nat) : event :=
  EvVerdict p (module_valid s p) (nth p (if module_valid s p then y_cbv (n_sync s) else y_cbn (n_sync s)) None) now.
Definition tvm_of (s : node) (now : N) (tvm : list N) (p : nat) : list N :=
  if module_valid s p then set_nth tvm p now else tvm.

Lemma check_modules_inv n first now s v s' : check_modules n first now s = Ret (v, s') ->
  n_cfg s' = n_cfg s /\
  (exists img, n_sync s' = set_y_tvm (set_y_img (n_sync s) img) (fold_left (tvm_of s now) (seq first n) (y_tvm (n_sync s)))) /\
  n_log s' = n_log s ++ map (ev_of s now) (seq first n) /\
  v = forallb (module_valid s) (seq first n) /\ n_tx s' = n_tx s /\ n_hw s' = n_hw s.
Proof.
  revert first s v s'. induction n as [|n IH]; intros first s v s' H; cbn [check_modules seq map forallb fold_left] in *.
  - minv_all. rewrite app_nil_r. repeat split; auto. exists (y_img (n_sync s)). destruct (n_sync s); reflexivity.
  - mbind H as v1 s1 H1. mbind H as u1 s2 H2. apply modify_inv in H2. mbind H as cb s3 H3. apply gets_inv in H3. destruct H3 as [-> ->].
    mbind H as u2 s4 H4. unfold emit in H4. apply modify_inv in H4. mbind H as r s5 H5. apply ret_inv in H. destruct H as [-> ->].
    unfold check_module in H1. mbind H1 as v2 s6 H6. apply gets_inv in H6. destruct H6 as [-> ->]. mbind H1 as u3 s7 H7.
    apply ret_inv in H1. destruct H1 as [-> ->].
    assert (s7 = set_n_sync s (set_y_tvm (n_sync s) (tvm_of s now (y_tvm (n_sync s)) first))) as ->.
    { unfold tvm_of. destruct (module_valid s first); minv_all; [reflexivity|]. destruct s as [? ? ? [] ? ? ? ? ?]; reflexivity. }
    subst s2. apply IH in H5.
    assert (forall p, module_valid s4 p = module_valid s p) as Hv by (subst s4; reflexivity).
    destruct H5 as (A & (img & B) & C & D & F & G). subst s4. cbn in A, B, C, F, G.
    assert (forall l t0, fold_left (tvm_of (set_n_log (upd_sync (fun y : syncst => set_y_img y (set_nth (y_img y) first (module_valid s first)))
             (set_n_sync s (set_y_tvm (n_sync s) (tvm_of s now (y_tvm (n_sync s)) first))))
             (n_log s ++ [EvVerdict first (module_valid s first)
                (nth first (if module_valid s first then y_cbv (n_sync s) else y_cbn (n_sync s)) None) now])) now) l t0 = fold_left (tvm_of s now) l t0) as Hf.
    { intros. reflexivity. }
    cbn in Hf. repeat split; auto.
    + exists img. rewrite B. reflexivity.
    + rewrite C, <- app_assoc. reflexivity.
    + rewrite D. f_equal.
Qed.

Lemma nth_clear_rows tab l i : length tab = length l -> (i < length l)%nat ->
  nth i (clear_rows tab l) [] = clear_row (m_nrx_s (nth i tab modl0)) (nth i l []).
Proof.
  revert tab i. induction l as [|r l IH]; intros [|m tab] i H L; cbn in *; try lia. destruct i as [|i]; [reflexivity|]. apply IH; lia.
Qed.
Lemma nth_skipn {A} (l : list A) n j d : nth j (skipn n l) d = nth (n + j) l d.
Proof. revert l. induction n as [|n IH]; intros [|x l]; cbn; auto. destruct j; reflexivity. Qed.
Lemma nth_clear_row n (l : list N) j : nth j (clear_row n l) 0 = if (j <? n)%nat then 0 else nth j l 0.
Proof.
  unfold clear_row. destruct (Nat.ltb_spec j n) as [L|L].
  - destruct (Nat.lt_ge_cases j (length l)) as [L1|L1].
    + rewrite app_nth1 by (rewrite repeat_length; lia). apply nth_repeat.
    + apply nth_overflow. rewrite app_length, repeat_length, skipn_length. lia.
  - destruct (Nat.lt_ge_cases j (length l)) as [L1|L1].
    + rewrite app_nth2 by (rewrite repeat_length; lia). rewrite repeat_length, nth_skipn. f_equal. lia.
    + rewrite !nth_overflow; auto. rewrite app_length, repeat_length, skipn_length. lia.
Qed.
Lemma get2_clear s pos obj : WF E s -> (pos < MAXM E)%nat ->
  get2 (clear_rows (tab_of s) (y_cnt (n_sync s))) pos obj =
  if (obj <? listening s pos)%nat then 0 else get2 (y_cnt (n_sync s)) pos obj.
Proof.
  intros (( L1 & _) & _ & _ & W) Lp. destruct W as [[Hl Hr] _]. unfold get2.
  rewrite nth_clear_rows by (unfold tab_of; lia). rewrite nth_clear_row. reflexivity.
Qed.

Definition evaluated (s : node) : bool :=
  y_pr_flag (n_sync s) && (y_pr_dlc (n_sync s) <=? 1) && (y_pr_cnt (n_sync s) =? 1).

Lemma check_image_inv now s s' : check_image now s = Ret (tt, s') ->
  let n := nmod s in let y := n_sync s in
  n_cfg s' = n_cfg s /\ n_tx s' = n_tx s /\ n_hw s' = n_hw s /\
  (exists img, n_sync s' =
     if y_pr_flag y then
       let y0 := set_y_cnt (set_y_pr_flag (set_y_pr_cnt (set_y_img y img) 0) false) (clear_rows (tab_of s) (y_cnt y)) in
       if evaluated s then
         let y1 := set_y_tvm y0 (fold_left (tvm_of s now) (seq 0 n) (y_tvm y)) in
         if forallb (module_valid s) (seq 0 n) then set_y_tv y1 now else y1
       else y0
     else y) /\
  n_log s' = n_log s ++ (if evaluated s then map (ev_of s now) (seq 0 n) ++
               (if forallb (module_valid s) (seq 0 n) then [EvImage (y_cbp y) now] else []) else []).
Proof.
  intros H n y. unfold check_image in H. mbind H as y' s0 H0. apply gets_inv in H0. destruct H0 as [-> ->]. fold y in H.
  unfold evaluated. fold y. destruct (y_pr_flag y); cbn [andb].
  - mbind H as u1 s1 H1. destruct u1. unfold clear_image in H. mbind H as tab s2 H2. apply gets_inv in H2. destruct H2 as [-> ->].
    apply modify_inv in H. subst s'.
    destruct (1 <? y_pr_dlc y) eqn:Ed.
    { replace (y_pr_dlc y <=? 1) with false by (clear -Ed; lia). apply ret_inv in H1. destruct H1 as [_ ->]. cbn [andb].
      rewrite app_nil_r. repeat split; auto. exists (y_img y). unfold y. destruct s as [? ? ? [] ? ? ? ? ?]; reflexivity. }
    replace (y_pr_dlc y <=? 1) with true by (clear -Ed; lia). destruct (y_pr_cnt y =? 1); cbn [negb andb] in *.
    2: { apply ret_inv in H1. destruct H1 as [_ ->]. rewrite app_nil_r. repeat split; auto. exists (y_img y). unfold y. destruct s as [? ? ? [] ? ? ? ? ?]; reflexivity. }
    mbind H1 as n' s2 H2. apply gets_inv in H2. destruct H2 as [-> ->]. fold n in H1. mbind H1 as v s2 H2.
    apply check_modules_inv in H2. destruct H2 as (A & (img & B) & C & D & F & G). subst v.
    destruct (forallb (module_valid s) (seq 0 n)).
    + mbind H1 as u s3 H3. apply modify_inv in H3. unfold emit in H1. apply modify_inv in H1. subst s1 s3. cbn.
      rewrite C, <- app_assoc. repeat split; auto. exists img. rewrite B. unfold y, tab_of. cbn. rewrite A. reflexivity.
    + apply ret_inv in H1. destruct H1 as [_ ->]. rewrite app_nil_r. repeat split; auto. exists img. cbn. rewrite B. unfold y, tab_of. cbn. rewrite A.
      reflexivity.
  - minv_all. rewrite app_nil_r. do 3 (split; [reflexivity|]). split; [exists []; reflexivity|]. reflexivity.
Qed.

(** the whole request: evaluation, then the state in which the new cycle starts *)
Lemma on_process_inv dlc now s s' : on_process E dlc now s = Ret (tt, s') ->
  let n := nmod s in let y := n_sync s in
  n_cfg s' = n_cfg s /\
  y_pr_flag (n_sync s') = true /\ y_pr_dlc (n_sync s') = dlc /\ y_ts (n_sync s') = now /\
  y_per (n_sync s') = u32_sub now (y_ts y) /\
  y_pr_cnt (n_sync s') = (if y_pr_flag y then 1 else u16 (y_pr_cnt y + 1)) /\
  y_cnt (n_sync s') = (if y_pr_flag y then clear_rows (tab_of s) (y_cnt y) else y_cnt y) /\
  y_tvm (n_sync s') = (if evaluated s then fold_left (tvm_of s now) (seq 0 n) (y_tvm y) else y_tvm y) /\
  y_tv (n_sync s') = (if evaluated s && forallb (module_valid s) (seq 0 n) then now else y_tv y) /\
  exists q1 q2, forallb quiet_ev q1 = true /\ forallb quiet_ev q2 = true /\
    n_log s' = n_log s ++ q1 ++ (if evaluated s then map (ev_of s now) (seq 0 n) ++
               (if forallb (module_valid s) (seq 0 n) then [EvImage (y_cbp y) now] else []) else []) ++ q2.
Proof.
  intros H n y. unfold on_process in H. mbind H as u1 s1 H1. destruct u1. mbind H as u2 s2 H2. destruct u2.
  mbind H as u3 s3 H3. destruct u3. mbind H as u4 s4 H4. unfold rx_process_main in H4. apply modify_inv in H4.
  mbind H as c s5 H5. apply gets_inv in H5. destruct H5 as [-> ->].
  apply qp_request in H1. apply qp_send_process in H3.
  assert (QP s4 s') as H5. { destruct (0 <? _)%nat; [eapply qp_one_error, H | minv_all; apply pre_refl]. }
  clear H. apply check_image_inv in H2. cbn zeta in H2.
  destruct H1 as ((q1 & L1 & Q1) & Y1 & K1). destruct H3 as ((q3 & L3 & Q3) & Y3 & K3). destruct H5 as ((q5 & L5 & Q5) & Y5 & K5).
  destruct H2 as (K2 & _ & _ & (img & Y2) & L2).
  assert (nmod s1 = n) as En by (unfold nmod, n, nmod; rewrite K1; reflexivity).
  assert (tab_of s1 = tab_of s) as Et by (unfold tab_of; rewrite K1; reflexivity).
  assert (forall p, module_valid s1 p = module_valid s p) as Ev.
  { intro p. unfold module_valid, modat. rewrite Et. replace (y_cnt (n_sync s1)) with (y_cnt (n_sync s)); [reflexivity|].
    change (y_cnt (n_sync s)) with (y_cnt (set_y_first (n_sync s) false)). rewrite <- Y1. reflexivity. }
  assert (exists f, n_sync s1 = set_y_first y f) as [f Ef].
  { exists (y_first (n_sync s1)). unfold y. revert Y1. destruct (n_sync s1), (n_sync s). cbn. intro Y. injection Y as -> -> -> -> -> -> -> -> -> -> -> -> -> -> ->. reflexivity. }
  assert (evaluated s1 = evaluated s) as Ee by (unfold evaluated; rewrite Ef; reflexivity).
  assert (forall l, forallb (module_valid s1) l = forallb (module_valid s) l) as Efv.
  { induction l as [|a l IH]; cbn; auto. rewrite Ev, IH. reflexivity. }
  assert (forall l, map (ev_of s1 now) l = map (ev_of s now) l) as Eev.
  { intro l. apply map_ext. intro p. unfold ev_of. rewrite Ev, Ef. reflexivity. }
  assert (forall l t, fold_left (tvm_of s1 now) l t = fold_left (tvm_of s now) l t) as Etv.
  { induction l as [|a l IH]; intro t; cbn; auto. unfold tvm_of at 2 4. rewrite Ev. apply IH. }
  rewrite En, Ee, ?Efv, ?Eev, ?Etv, Ef, Et in *.
  assert (n_sync s' = set_y_first (n_sync s4) (y_first (n_sync s'))) as Z5.
  { revert Y5. destruct (n_sync s4), (n_sync s'). cbn. intro Y. injection Y as -> -> -> -> -> -> -> -> -> -> -> -> -> -> ->. reflexivity. }
  assert (n_sync s3 = set_y_first (n_sync s2) (y_first (n_sync s3))) as Z3.
  { revert Y3. destruct (n_sync s2), (n_sync s3). cbn. intro Y. injection Y as -> -> -> -> -> -> -> -> -> -> -> -> -> -> ->. reflexivity. }
  split; [subst s4; cbn in K5; congruence|].
  rewrite Z5. subst s4. cbn. rewrite Z3. rewrite Y2. cbn. cbn in L5.
  split; [reflexivity|]. split; [reflexivity|]. split; [reflexivity|].
  assert (u16 (0 + 1) = 1) as U1 by reflexivity.
  repeat split.
  - destruct (y_pr_flag y), (evaluated s); try reflexivity; destruct (forallb (module_valid s) (seq 0 n)); reflexivity.
  - unfold evaluated. fold y. destruct (y_pr_flag y); cbn [andb]; [|reflexivity]. 
    destruct (_ && _); [destruct (forallb (module_valid s) (seq 0 n))|]; reflexivity.
  - destruct (y_pr_flag y), (evaluated s); try reflexivity; destruct (forallb (module_valid s) (seq 0 n)); reflexivity.
  - unfold evaluated. fold y. destruct (y_pr_flag y); cbn [andb]; [|reflexivity]. 
    destruct (_ && _); [destruct (forallb (module_valid s) (seq 0 n))|]; reflexivity.
  - unfold evaluated. fold y. destruct (y_pr_flag y); cbn [andb]; [|reflexivity]. 
    destruct (_ && _); [destruct (forallb (module_valid s) (seq 0 n))|]; reflexivity.
  - exists q1, (q3 ++ q5). rewrite forallb_app, Q3, Q5. repeat split; auto.
    rewrite L5, L3, L2, L1, <- !app_assoc. destruct (evaluated s); rewrite <- ?app_assoc; reflexivity.
Qed.
End Sync.
