(** The number of configured modules never exceeds the number of used table entries. *)
From Verif Require Import Words WordsFacts ErrModel NodeModel NodeLib NodeInv NodeSpec NodeHw.

Definition count_used (tab : list modl) : nat := length (filter in_use tab).
Definition CntI (s : node) : Prop := (nmod s <= count_used (tab_of s))%nat.
Definition CntR (s s' : node) : Prop := CntI s -> CntI s'.
#[export] Instance pre_CntR : Pre CntR := pre_imp CntI.

(** types and module count unchanged *)
Definition same_types (s s' : node) : Prop := map m_type (tab_of s') = map m_type (tab_of s) /\ nmod s' = nmod s.
#[export] Instance pre_same_types : Pre same_types.
Proof. split; [intro; split; reflexivity | intros a b c [] []; split; congruence]. Qed.

Lemma count_used_types tab : count_used tab = length (filter (fun t => negb (hd 0 t =? 0)) (map m_type tab)).
Proof. unfold count_used, in_use. induction tab as [|m t IH]; cbn; auto. destruct (hd 0 (m_type m) =? 0); cbn; auto. Qed.
Lemma same_types_CntR s s' : same_types s s' -> CntR s s'.
Proof. intros [H1 H2] H. unfold CntI in *. rewrite count_used_types, H1, H2, <- count_used_types. exact H. Qed.

Lemma types_upd_mod pos f s : (forall m, m_type (f m) = m_type m) -> same_types s (upd_mod pos f s).
Proof.
  intro Hf. split; [|reflexivity]. unfold upd_mod, upd_cfg, tab_of. cbn. rewrite map_set_nth, Hf.
  destruct (Nat.lt_ge_cases pos (length (k_tab (n_cfg s)))) as [L|L].
  - apply set_nth_id. rewrite (nth_error_nth' _ []) by (rewrite map_length; exact L). f_equal.
    change [] with (m_type (Modl [] 0 0 0 0 0 [] [])). rewrite map_nth. f_equal. apply nth_indep. exact L.
  - apply set_nth_beyond. rewrite map_length. exact L.
Qed.
Ltac types_leaf := first [ split; reflexivity | apply types_upd_mod; intro; reflexivity ].

Section Cnt.
Variable E : env.
Lemma types_set_silent_awake p st : pres same_types (set_silent_awake E p st).
Proof.
  unfold set_silent_awake, sync_off, sync_on, tx_data_on, tx_data_off.
  repeat ((simple apply pres_call_rx; [typeclasses eauto| intros; types_leaf]) || pres_tac1); types_leaf.
Qed.
Lemma types_set_active_critical t on : pres same_types (set_active_critical t on).
Proof.
  unfold set_active_critical, sync_off, sync_on, tx_data_on, tx_data_off.
  repeat ((simple apply pres_call_rx; [typeclasses eauto| intros; types_leaf]) || pres_tac1); types_leaf.
Qed.
Lemma types_define_obj mo id mask dlc rx sv sy : pres same_types (define_obj E mo id mask dlc rx sv sy).
Proof. unfold define_obj, hw_define. pres_tac; types_leaf. Qed.
Lemma types_define_shared a b c d : pres same_types (define_shared E a b c d).
Proof.
  unfold define_shared, get_async_ctrl_obj, next_free.
  repeat (simple apply types_define_obj || simple apply types_set_silent_awake || pres_tac1); types_leaf.
Qed.
Lemma types_tx_data_cnfg a b c : pres same_types (tx_data_cnfg E a b c).
Proof. unfold tx_data_cnfg. pres_tac; types_leaf. Qed.
Lemma types_rx_slot p n i : pres same_types (rx_slot E p n i).
Proof. unfold rx_slot, next_free, rx_data_cnfg. repeat (simple apply types_define_obj || pres_tac1); types_leaf. Qed.

Lemma count_used_set tab i m : (i < length tab)%nat -> in_use m = true -> in_use (nth i tab modl0) = false ->
  count_used (set_nth tab i m) = S (count_used tab).
Proof.
  revert i. unfold count_used. induction tab as [|x t IH]; intros [|i] L Hm Hx; cbn in L, Hx |- *; try lia.
  - rewrite Hm, Hx. reflexivity.
  - destruct (in_use x); cbn; rewrite IH; auto; lia.
Qed.
Lemma count_used_set_le tab i m : in_use m = true -> (count_used tab <= count_used (set_nth tab i m))%nat.
Proof.
  revert i. unfold count_used. induction tab as [|x t IH]; intros [|i] Hm; cbn; try lia.
  - rewrite Hm. cbn. destruct (in_use x); cbn; lia.
  - specialize (IH i Hm). destruct (in_use x); cbn; lia.
Qed.
Lemma count_used_le tab : (count_used tab <= length tab)%nat.
Proof. unfold count_used. induction tab as [|x t IH]; cbn; auto. destruct (in_use x); cbn; lia. Qed.

Lemma first_unused_spec tab i j : first_unused tab i = Some j ->
  (i <= j < i + length tab)%nat /\ in_use (nth (j - i) tab modl0) = false /\
  (forall k, (k < j - i)%nat -> in_use (nth k tab modl0) = true).
Proof.
  revert i. induction tab as [|m t IH]; intros i H; cbn in H; [discriminate|].
  destruct (hd 0 (m_type m) =? 0) eqn:Em.
  - injection H as <-. rewrite Nat.sub_diag. cbn. unfold in_use. rewrite Em. repeat split; try lia; auto.
  - apply IH in H. destruct H as (H1 & H2 & H3). replace (j - i)%nat with (S (j - S i)) by lia. cbn.
    repeat split; try lia; auto. intros [|k] Hk; [unfold in_use; rewrite Em; reflexivity | apply H3; lia].
Qed.

Lemma for_err_pres (R : node -> node -> Prop) `{Pre R} n i f : (forall j, pres R (f j)) -> pres R (for_err n i f).
Proof. apply pres_for_err. assumption. Qed.

Definition new_entry (d : modl) (nr : N) (rxs txs : list nat) : modl :=
  Modl (m_type d) nr (m_nrx d) (m_nrx d) (m_ntx d) (m_ntx d) (set_addrs_rx (m_rx d) rxs) (set_addrs_tx (m_tx d) txs).

(** the part of can_config_set_module after the table entry is written *)
Definition set_module_rest (pos : nat) (d : modl) (nr : N) : M N :=
  for_err (m_ntx d) 0 (fun i =>
    modify (upd_mod pos (upd_txo i (fun o => set_t_dlc_s o (t_dlc o)))) ;;;
    tx_data_cnfg E pos i nr) >>>
  for_err (m_nrx d) 0 (rx_slot E pos nr) >>>
  (tab <- gets tab_of ;;
   n <- gets nmod ;;
   define_shared E n pos nr (mask_of (map m_nr (firstn (S pos) tab)))).
Definition bump : M unit := modify (upd_cfg (fun k => set_k_nmod k (S (k_nmod k)))).
Lemma types_set_module_rest pos d nr : pres same_types (set_module_rest pos d nr).
Proof.
  unfold set_module_rest.
  repeat (simple apply types_define_shared || simple apply types_tx_data_cnfg || simple apply types_rx_slot || pres_tac1); types_leaf.
Qed.

(** shape of a completed addition *)
Lemma set_module_inv pos d nr rxs txs s e s' : set_module E pos d nr rxs txs s = Ret (e, s') ->
  desc_ok d = true /\
  exists s1, set_module_rest pos d (limit_nr pos nr) (upd_mod pos (fun _ => new_entry d (limit_nr pos nr) rxs txs) s) = Ret (e, s1) /\
    (s' = s1 \/ s' = upd_cfg (fun k => set_k_nmod k (S (k_nmod k))) s1).
Proof.
  unfold set_module. intro H. mbind H as u0 s0 H0. apply guard_inv in H0. destruct H0 as [Hd ->]. split; [exact Hd|].
  mbind H as u1 s1 H1. apply modify_inv in H1. change (fun _ : modl => _) with (fun _ : modl => new_entry d (limit_nr pos nr) rxs txs) in H1.
  subst s1. set (sa := upd_mod _ _ s) in *. unfold set_module_rest, andthen in *.
  mbind H as e1 s1 H1. unfold bind at 1. setoid_rewrite H1.
  destruct (e1 =? ERR_OK) eqn:E1; [|apply ret_inv in H; destruct H as [-> ->]; eexists; split; [reflexivity | auto]].
  mbind H as e2 s2 H2. unfold bind at 1. setoid_rewrite H2.
  destruct (e2 =? ERR_OK) eqn:E2; [|apply ret_inv in H; destruct H as [-> ->]; eexists; split; [reflexivity | auto]].
  mbind H as tab s3 H3. apply gets_inv in H3. destruct H3 as [-> ->]. unfold bind at 1. cbn [gets].
  mbind H as n s3 H3. apply gets_inv in H3. destruct H3 as [-> ->]. unfold bind at 1. cbn [gets].
  mbind H as e3 s3 H3. mbind H as u s4 H4. apply modify_inv in H4. apply ret_inv in H. destruct H as [-> ->]. subst.
  eexists. split; [exact H3 | auto].
Qed.

Lemma CntR_add_module d nr rxs txs : pres CntR (add_module E d nr rxs txs).
Proof.
  intros s e s' H I. unfold add_module in H. mbind H as tab s0 H0. apply gets_inv in H0. destruct H0 as [-> ->].
  destruct (first_unused (tab_of s) 0) as [i|] eqn:Fu; [|apply ret_inv in H; destruct H as [_ ->]; exact I].
  apply first_unused_spec in Fu. rewrite Nat.sub_0_r in Fu. destruct Fu as (Li & Ui & _).
  assert (forall nr e1 s1, set_module E i d nr rxs txs s = Ret (e1, s1) -> CntI s1) as Hs.
  { clear H. intros nr0 e1 s1 H. apply set_module_inv in H. destruct H as (Hd & s2 & H & Hs).
    apply types_set_module_rest in H. destruct H as [T1 T2].
    assert (in_use (new_entry d (limit_nr i nr0) rxs txs) = true) as Hu.
    { unfold desc_ok in Hd. unfold in_use. cbn. apply andb_prop in Hd. tauto. }
    assert (S (nmod s2) <= count_used (tab_of s2))%nat as Hc.
    { rewrite count_used_types, T1, T2, <- count_used_types. 
      change (tab_of (upd_mod i (fun _ => new_entry d (limit_nr i nr0) rxs txs) s))
        with (set_nth (tab_of s) i (new_entry d (limit_nr i nr0) rxs txs)).
      change (nmod (upd_mod i (fun _ => new_entry d (limit_nr i nr0) rxs txs) s)) with (nmod s).
      rewrite count_used_set; auto; [|lia]. apply le_n_S. exact I. }
    destruct Hs as [->| ->]; unfold CntI; cbn; [lia|]. exact Hc. }
  destruct (existsb _ _).
  - mbind H as e1 s1 H1. apply Hs in H1. mbind H as u s2 H2. apply ret_inv in H. destruct H as [_ ->].
    revert H1. apply same_types_CntR. revert H2. apply pres_report_if; [typeclasses eauto|]. intros; types_leaf.
  - mbind H as e1 s1 H1. apply Hs in H1. mbind H as u s2 H2. apply ret_inv in H. destruct H as [_ ->].
    revert H1. apply same_types_CntR. revert H2. apply pres_report_if; [typeclasses eauto|]. intros; types_leaf.
Qed.
Lemma CntR_of_types A (m : M A) : pres same_types m -> pres CntR m.
Proof. apply pres_weaken. apply same_types_CntR. Qed.
Lemma types_change_nr_ids t n a : pres same_types (change_nr_ids E t n a).
Proof. unfold change_nr_ids. repeat (simple apply types_define_shared || simple apply types_define_obj || simple apply types_tx_data_cnfg || pres_tac1); types_leaf. Qed.
Lemma types_change_nr p n : pres same_types (change_nr E p n).
Proof. unfold change_nr. repeat (simple apply types_change_nr_ids || simple apply types_set_silent_awake || pres_tac1). Qed.
Lemma CntR_change_type p t : pres CntR (change_type E p t).
Proof.
  unfold change_type. refine (pres_bind _ _ _ _ _); [pres_tac|intro c]. destruct c as [c|]; [|pres_tac].
  destruct (strn_eq _ _ _); [|pres_tac].
  destruct (desc_ok (c_desc c) && (m_nrx_s (c_desc c) <=? NOBJ)%nat && (m_ntx_s (c_desc c) <=? NOBJ)%nat) eqn:Hd;
    [|intros s a s' H; discriminate H].
  repeat ((simple apply CntR_of_types; simple apply types_tx_data_cnfg) || pres_tac1); try (apply same_types_CntR; types_leaf).
  intro I. unfold CntI in *. unfold upd_mod, upd_cfg, tab_of, nmod. cbn. fold (nmod s) (tab_of s).
  etransitivity; [exact I|]. apply count_used_set_le. unfold desc_ok in Hd. unfold in_use. cbn.
  repeat match goal with H : _ && _ = true |- _ => apply andb_prop in H; destruct H end. assumption.
Qed.
Lemma types_set_baudrate r : pres same_types (set_baudrate r).
Proof.
  unfold set_baudrate. refine (pres_bind _ _ _ _ _); [pres_tac|intro tab]. generalize ERR_OK.
  induction tab as [|x tab IH]; intro e; cbn [set_baudrate_loop]; [pres_tac|].
  destruct (r =? x); [|apply IH]. unfold hw_set_baudrate. repeat (simple apply IH || pres_tac1); types_leaf.
Qed.
Lemma types_set_node_mode m : pres same_types (set_node_mode m).
Proof. unfold set_node_mode. pres_tac; types_leaf. Qed.
Lemma CntR_sys_cmd bc pos nr src : pres CntR (sys_cmd E bc pos nr src).
Proof.
  unfold sys_cmd, sys_silent_awake, status_ackn, version_ackn, sys_tx, send_msg, set_cycle_time.
  repeat ((simple apply CntR_of_types; first [simple apply types_set_node_mode | simple apply types_set_baudrate 
    | simple apply types_change_nr | simple apply types_set_silent_awake ]) || simple apply CntR_change_type
    || (simple apply pres_drain; try typeclasses eauto; intros) || pres_tac1); apply same_types_CntR; types_leaf.
Qed.
Lemma CntR_on_sys id dlc data : pres CntR (on_sys E id dlc data).
Proof. unfold on_sys, sys_msg_rx. repeat (simple apply CntR_sys_cmd || pres_tac1);  apply same_types_CntR; types_leaf. Qed.
Lemma types_on_data mo id dlc data : pres same_types (on_data E mo id dlc data).
Proof.
  unfold on_data, rx_data_main. repeat ((simple apply pres_call_rx; try typeclasses eauto; intros) || pres_tac1); types_leaf.
Qed.
Lemma types_check_image now : pres same_types (check_image now).
Proof.
  unfold check_image.
  assert (forall n first, pres same_types (check_modules n first now)) as Hc.
  { induction n as [|n IH]; intro first; cbn [check_modules]; [pres_tac|].
    unfold check_module. repeat (simple apply IH || pres_tac1); types_leaf. }
  unfold clear_image. repeat (simple apply Hc || pres_tac1); types_leaf.
Qed.
Lemma types_on_process dlc now : pres same_types (on_process E dlc now).
Proof.
  unfold on_process, process_request_rx, rx_process_main, send_process_data, send_one_error, send_error, sys_tx, send_msg.
  repeat (simple apply types_check_image || (simple apply pres_send_loop; try typeclasses eauto; intros) || pres_tac1); types_leaf.
Qed.
Lemma CntR_step o : pres CntR (step E o).
Proof.
  destruct o; cbn [step]; unfold ignore.
  2: { repeat (simple apply CntR_add_module || pres_tac1). }
  all: unfold frame_rx, set_silent_awake_type_nr, set_image_cb, trigger_period, get_period, change_type_add, set_cycle_time;
  repeat (simple apply CntR_on_sys || (simple apply CntR_of_types; first [simple apply types_on_data | simple apply types_on_process
   | simple apply types_set_silent_awake | simple apply types_set_active_critical | simple apply types_change_nr_ids
   | simple apply types_set_node_mode | simple apply types_set_baudrate]) || pres_tac1); apply same_types_CntR; types_leaf.
Qed.
Lemma CntI_booted s : booted E s -> CntI s.
Proof.
  intros (mem & st & orc & rate & H). unfold CntI. enough (nmod s = 0%nat) by lia.
  unfold can_init in H. apply andthen_inv in H. destruct H as (s1 & H1 & H).
  assert (nmod s1 = 0%nat) as Z. { unfold config_init in H1. minv_all. reflexivity. }
  enough (nmod s = nmod s1) by congruence. clear Z H1. revert H.
  assert (forall m, pres (fun s s' => nmod s' = nmod s) m -> forall (e:N) s1 s, m s1 = Ret (e, s) -> nmod s = nmod s1) as K by (intros; eauto).
  apply K. unfold define_obj, hw_define, msg_objs_init, sys_init, sync_init. pres_tac; reflexivity.
Qed.
Lemma CntI_reached ops s : reached E ops s -> CntI s.
Proof. intros (s0 & B & R). eapply (pres_run E CntR CntR_step); [exact R | apply CntI_booted, B]. Qed.
Lemma nmod_le ops s : reached E ops s -> (nmod s <= MAXM E)%nat.
Proof.
  intro R. pose proof (CntI_reached _ _ R) as C. destruct (WF_reached _ _ _ R) as ((L & _) & _).
  unfold CntI in C. pose proof (count_used_le (tab_of s)). unfold tab_of in *. lia.
Qed.
End Cnt.
