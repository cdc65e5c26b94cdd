(** Message object bookkeeping: reserved objects stay reserved, registered objects are pairwise different. *)
From Verif Require Import Words WordsFacts ErrModel NodeModel NodeLib NodeInv NodeSpec.

Definition reserved (E : env) : list nat :=
  [MO_PROCESS; MO_SYS1; MO_TX] ++ (if SYS2 E then [MO_SYS2] else []) ++ (if ASY E then [MO_ASYNC_DATA] else []).
Definition used (s : node) (mo : nat) : bool := nth mo (h_used (n_hw s)) false.
Definition HwI (E : env) (s : node) : Prop :=
  (forall r, In r (reserved E) -> used s r = true) /\
  (forall mo, In mo (map fst (h_rxtab (n_hw s))) -> used s mo = true /\ ~ In mo (reserved E)) /\
  NoDup (map fst (h_rxtab (n_hw s))).
Definition HwR (E : env) (s s' : node) : Prop := HwI E s -> HwI E s'.
#[export] Instance pre_HwR E : Pre (HwR E) := pre_imp (HwI E).

(** the used flags only grow *)
Definition grows (s s' : node) : Prop :=
  (forall mo, used s mo = true -> used s' mo = true) /\ h_rxtab (n_hw s') = h_rxtab (n_hw s).
#[export] Instance pre_grows : Pre grows.
Proof.
  split.
  - intro s. split; auto.
  - intros a b c [H1 H2] [H3 H4]. split; auto. congruence.
Qed.
Lemma grows_HwR E s s' : grows s s' -> HwR E s s'.
Proof.
  intros [G1 G2] (I1 & I2 & I3). unfold HwI. rewrite G2. repeat split; auto.
  - apply G1, (I2 _ H).
  - apply (I2 _ H).
Qed.
Lemma pres_weaken (R R' : node -> node -> Prop) A (m : M A) : (forall s s', R s s' -> R' s s') -> pres R m -> pres R' m.
Proof. intros H Hm s a s' E. apply H. eapply Hm, E. Qed.

Lemma set_nth_true_grow l mo i : nth i l false = true -> nth i (set_nth l mo true) false = true.
Proof.
  intro H. destruct (Nat.eq_dec mo i) as [->|N].
  - destruct (Nat.lt_ge_cases i (length l)).
    + apply nth_set_nth_same. assumption.
    + rewrite set_nth_beyond by lia. exact H.
  - rewrite nth_set_nth_other; assumption.
Qed.

Ltac grows_leaf := split; [intros ? ?; unfold used, upd_hw, upd_mod, upd_cfg, upd_tx in *; cbn; auto using set_nth_true_grow | reflexivity].

Section Hw.
Variable E : env.

Lemma define_obj_inv mo id mask dlc rx sv sy s e s' : define_obj E mo id mask dlc rx sv sy s = Ret (e, s') ->
  h_rxtab (n_hw s') = h_rxtab (n_hw s) /\ (e = ERR_OK -> h_used (n_hw s') = set_nth (h_used (n_hw s)) mo true /\ (mo < NMSG E)%nat)
  /\ n_cfg s' = n_cfg s /\ n_tx s' = n_tx s.
Proof.
  unfold define_obj.
  destruct (CHKDEF E && negb (mo <? NMSG E)%nat). { intro H. minv1 H. subst. repeat split; auto; discriminate. }
  destruct (CHKDEF E && (2047 <? id)). { intro H. minv1 H. subst. repeat split; auto; discriminate. }
  destruct (CHKDEF E && (8 <? u8 dlc)). { intro H. minv1 H. subst. repeat split; auto; discriminate. }
  intro H. unfold hw_define in H. minv_all. unfold ask in *.
  match goal with H : (match n_orc ?s with _ => _ end) = Ret (_, ?s2) |- _ =>
    assert (n_hw s2 = n_hw s /\ n_cfg s2 = n_cfg s /\ n_tx s2 = n_tx s) as (W & Wc & Wt)
      by (destruct (n_orc s); injection H as <- <-; repeat split; reflexivity); clear H end.
  match goal with H : (_ <? _)%nat = true |- _ => apply Nat.ltb_lt in H end.
  match goal with c : bool |- _ => destruct c end; minv_all.
  - change (ERR_OK =? ERR_OK) with true in H. cbv iota in H.
    destruct sv; try destruct sy; minv_all; cbn; rewrite ?W, ?Wc, ?Wt; cbn; auto.
  - change (E_INIT_FAILED =? ERR_OK) with false in H. cbv iota in H. minv_all. rewrite W. repeat split; auto; discriminate.
Qed.

Lemma grows_define_obj mo id mask dlc rx sv sy : pres grows (define_obj E mo id mask dlc rx sv sy).
Proof. unfold define_obj, hw_define. pres_tac; grows_leaf. Qed.
Lemma grows_set_silent_awake p st : pres grows (set_silent_awake E p st).
Proof.
  apply pres_set_silent_awake with (P := fun _ => True); try typeclasses eauto; auto; intros; grows_leaf.
Qed.
Lemma grows_set_active_critical t on : pres grows (set_active_critical t on).
Proof. apply pres_set_active_critical; try typeclasses eauto; intros; grows_leaf. Qed.
Lemma grows_define_shared a b c d : pres grows (define_shared E a b c d).
Proof.
  unfold define_shared, get_async_ctrl_obj, next_free.
  repeat (simple apply grows_define_obj || simple apply grows_set_silent_awake || pres_tac1); grows_leaf.
Qed.

Lemma first_free_spec l i mo : first_free l i = Some mo -> (i <= mo)%nat /\ nth (mo - i) l false = false /\ (mo - i < length l)%nat.
Proof.
  revert i. induction l as [|b0 l IH]; intros i H; cbn in H; [discriminate|]. destruct b0.
  - apply IH in H. destruct H as (H1 & H2 & H3). replace (mo - i)%nat with (S (mo - S i)) by lia. cbn. repeat split; auto; lia.
  - injection H as <-. rewrite Nat.sub_diag. cbn. repeat split; lia.
Qed.
Lemma next_free_spec s mo s' : next_free s = Ret (Some mo, s') -> s' = s /\ used s mo = false /\ (mo < length (h_used (n_hw s)))%nat.
Proof.
  unfold next_free. intro H. apply gets_inv in H. destruct H as [H ->]. symmetry in H. apply first_free_spec in H.
  rewrite Nat.sub_0_r in H. unfold used. tauto.
Qed.

Lemma HwR_rx_slot pos nr i : pres (HwR E) (rx_slot E pos nr i).
Proof.
  intros s e s' H I. unfold rx_slot in H.
  mbind H as u1 s1 H1. apply modify_inv in H1. mbind H as om s2 H2. destruct om as [mo|].
  - apply next_free_spec in H2. destruct H2 as (-> & Hu & Hl).
    mbind H as u3 s3 H3. apply modify_inv in H3. mbind H as dlc s4 H4. apply gets_inv in H4. destruct H4 as [_ ->].
    mbind H as e5 s5 H5.
    pose proof (grows_define_obj _ _ _ _ _ _ _ _ _ _ H5) as G.
    apply define_obj_inv in H5. destruct H5 as (G2 & G3 & _).
    assert (HwI E s5) as I2 by (apply (grows_HwR E s3 s5 G); subst s3 s1; exact I).
    destruct (e5 =? ERR_OK) eqn:Er; [|apply ret_inv in H; destruct H; subst; exact I2].
    apply N.eqb_eq in Er. destruct (G3 Er) as (G4 & L).
    unfold rx_data_cnfg in H. mbind H as tab s6 H6. apply gets_inv in H6. destruct H6 as [-> ->].
    destruct (_ <? _)%nat; [|apply ret_inv in H; destruct H; subst; exact I2].
    mbind H as u7 s7 H7. apply modify_inv in H7. apply ret_inv in H. destruct H as [_ ->].
    assert (h_rxtab (n_hw s5) = h_rxtab (n_hw s)) as T by (rewrite G2; subst; reflexivity).
    assert (~ In mo (map fst (h_rxtab (n_hw s5)))) as Nin.
    { intro Hin. rewrite T in Hin. destruct I as (K1 & K2 & K3). apply K2 in Hin. destruct Hin as [Hin _].
      subst s1. unfold used in *. cbn in Hu. congruence. }
    assert (~ In mo (reserved E)) as Nres.
    { intro Hin. destruct I as (K1 & K2 & K3). apply K1 in Hin. subst s1. unfold used in *. cbn in Hu. congruence. }
    assert (used s5 mo = true) as U2.
    { unfold used. rewrite G4. apply nth_set_nth_same. subst s3 s1. exact Hl. }
    destruct I2 as (J1 & J2 & J3). subst s7. unfold HwI. cbn [upd_hw n_hw set_n_hw h_rxtab set_h_rxtab h_used]. unfold used in *. cbn [upd_hw n_hw set_n_hw h_rxtab set_h_rxtab h_used].
    rewrite map_app. cbn [map fst]. split; [exact J1|]. split.
    + intros m Hm. apply in_app_or in Hm. destruct Hm as [Hm|[<-|[]]]; auto.
    + clear - J3 Nin. induction (map fst (h_rxtab (n_hw s5))) as [|x l IH]; cbn.
      * constructor; auto.
      * inversion J3; subst. constructor.
        -- rewrite in_app_iff. cbn. cbn in Nin. intuition.
        -- apply IH; auto. intro. apply Nin. right. assumption.
  - apply ret_inv in H. destruct H as [_ ->]. unfold next_free in H2. apply gets_inv in H2. destruct H2 as [_ ->]. subst. exact I.
Qed.
Lemma HwR_of_grows A (m : M A) : pres grows m -> pres (HwR E) m.
Proof. apply pres_weaken. apply grows_HwR. Qed.

Lemma grows_tx_data_cnfg a b c : pres grows (tx_data_cnfg E a b c).
Proof. unfold tx_data_cnfg. pres_tac; grows_leaf. Qed.
Lemma HwR_set_module pos d nr rxs txs : pres (HwR E) (set_module E pos d nr rxs txs).
Proof.
  unfold set_module.
  repeat (simple apply HwR_rx_slot || (simple apply HwR_of_grows; simple apply grows_define_shared)
   || (simple apply HwR_of_grows; simple apply grows_tx_data_cnfg) || pres_tac1); apply grows_HwR; grows_leaf.
Qed.
Lemma HwR_add_module d nr rxs txs : pres (HwR E) (add_module E d nr rxs txs).
Proof. unfold add_module. repeat (simple apply HwR_set_module || pres_tac1); apply grows_HwR; grows_leaf. Qed.
Lemma grows_change_nr_ids t n a : pres grows (change_nr_ids E t n a).
Proof. unfold change_nr_ids. repeat (simple apply grows_define_shared || simple apply grows_define_obj || simple apply grows_tx_data_cnfg || pres_tac1); grows_leaf. Qed.
Lemma grows_change_nr p n : pres grows (change_nr E p n).
Proof. unfold change_nr. repeat (simple apply grows_change_nr_ids || simple apply grows_set_silent_awake || pres_tac1). Qed.
Lemma grows_change_type p t : pres grows (change_type E p t).
Proof. unfold change_type. repeat (simple apply grows_tx_data_cnfg || pres_tac1); grows_leaf. Qed.
Lemma grows_set_baudrate r : pres grows (set_baudrate r).
Proof.
  unfold set_baudrate. refine (pres_bind _ _ _ _ _); [pres_tac|intro tab]. generalize ERR_OK.
  induction tab as [|x tab IH]; intro e; cbn [set_baudrate_loop]; [pres_tac|].
  destruct (r =? x); [|apply IH]. unfold hw_set_baudrate. repeat (simple apply IH || pres_tac1); grows_leaf.
Qed.
Lemma grows_set_node_mode m : pres grows (set_node_mode m).
Proof. unfold set_node_mode. pres_tac; grows_leaf. Qed.
Lemma grows_sys_cmd bc pos nr src : pres grows (sys_cmd E bc pos nr src).
Proof.
  unfold sys_cmd, sys_silent_awake, status_ackn, version_ackn, sys_tx, send_msg, set_cycle_time.
  repeat (simple apply grows_set_node_mode || simple apply grows_set_baudrate 
    || simple apply grows_change_nr || simple apply grows_set_silent_awake || simple apply grows_change_type
    || (simple apply pres_drain; try typeclasses eauto; intros) || pres_tac1); grows_leaf.
Qed.
Lemma grows_on_sys id dlc data : pres grows (on_sys E id dlc data).
Proof. unfold on_sys, sys_msg_rx. repeat (simple apply grows_sys_cmd || pres_tac1); grows_leaf. Qed.
Lemma grows_on_data mo id dlc data : pres grows (on_data E mo id dlc data).
Proof.
  unfold on_data, rx_data_main. repeat ((simple apply pres_call_rx; try typeclasses eauto; intros) || pres_tac1); grows_leaf.
Qed.
Lemma grows_check_image now : pres grows (check_image now).
Proof.
  unfold check_image.
  assert (forall n first, pres grows (check_modules n first now)) as Hc.
  { induction n as [|n IH]; intro first; cbn [check_modules]; [pres_tac|].
    unfold check_module. repeat (simple apply IH || pres_tac1); grows_leaf. }
  unfold clear_image. repeat (simple apply Hc || pres_tac1); grows_leaf.
Qed.
Lemma grows_on_process dlc now : pres grows (on_process E dlc now).
Proof.
  unfold on_process, process_request_rx, rx_process_main, send_process_data, send_one_error, send_error, sys_tx, send_msg.
  repeat (simple apply grows_check_image || (simple apply pres_send_loop; try typeclasses eauto; intros) || pres_tac1); grows_leaf.
Qed.
Lemma grows_frame_rx mo id dlc data now : pres grows (frame_rx E mo id dlc data now).
Proof. unfold frame_rx. repeat (simple apply grows_on_data || simple apply grows_on_process || simple apply grows_on_sys || pres_tac1). Qed.
Lemma HwR_step o : pres (HwR E) (step E o).
Proof.
  destruct o; cbn [step]; unfold ignore.
  2: { repeat (simple apply HwR_add_module || pres_tac1). }
  all: simple apply HwR_of_grows; unfold set_silent_awake_type_nr, set_image_cb, trigger_period, get_period, change_type_add, set_cycle_time;
  repeat (simple apply grows_frame_rx || simple apply grows_set_silent_awake || simple apply grows_set_active_critical || simple apply grows_change_nr_ids
   || simple apply grows_set_node_mode || simple apply grows_set_baudrate || pres_tac1); grows_leaf.
Qed.
Lemma HwR_run ops : pres (HwR E) (run E ops).
Proof. apply pres_run; [typeclasses eauto | apply HwR_step]. Qed.

Lemma define_obj_used mo id mask dlc rx sv sy s s' : length (h_used (n_hw s)) = NMSG E ->
  define_obj E mo id mask dlc rx sv sy s = Ret (ERR_OK, s') -> used s' mo = true /\ length (h_used (n_hw s')) = NMSG E.
Proof.
  intros L H. apply define_obj_inv in H. destruct H as (_ & H & _). destruct (H eq_refl) as [H1 H2].
  unfold used. rewrite H1, set_nth_length. split; auto. apply nth_set_nth_same. lia.
Qed.
Lemma andthen_inv m1 m2 s s' : andthen m1 m2 s = Ret (ERR_OK, s') ->
  exists s1, m1 s = Ret (ERR_OK, s1) /\ m2 s1 = Ret (ERR_OK, s').
Proof.
  unfold andthen. intro H. minv1 H. destruct (r =? ERR_OK) eqn:Er.
  - apply N.eqb_eq in Er. subst. eauto.
  - minv1 H. subst. discriminate.
Qed.
Lemma HwI_booted s : booted E s -> HwI E s.
Proof.
  intros (mem & st & orc & rate & H). unfold can_init in H.
  apply andthen_inv in H. destruct H as (s1 & H1 & H).
  assert (h_rxtab (n_hw s1) = []) as T1.
  { unfold config_init in H1. minv1 H1. minv1 H0. minv1 H1. subst. reflexivity. }
  clear H1.
  apply andthen_inv in H. destruct H as (s2 & H2 & H).
  assert (h_rxtab (n_hw s2) = []) as T2. { minv1 H2. minv1 H0. minv1 H2. subst. exact T1. }
  clear H2 T1 s1.
  apply andthen_inv in H. destruct H as (s3 & H3 & H).
  assert (h_rxtab (n_hw s3) = [] /\ length (h_used (n_hw s3)) = NMSG E) as [T3 L3].
  { unfold msg_objs_init in H3. minv1 H3. minv1 H0. minv1 H3. subst. cbn. rewrite repeat_length. auto. }
  clear H3 T2 s2.
  apply andthen_inv in H. destruct H as (s4 & H4 & H).
  pose proof (grows_define_obj _ _ _ _ _ _ _ _ _ _ H4) as G4. apply define_obj_used in H4; [|exact L3]. destruct H4 as [U4 L4].
  apply andthen_inv in H. destruct H as (s5 & H5 & H).
  pose proof (grows_define_obj _ _ _ _ _ _ _ _ _ _ H5) as G5. apply define_obj_used in H5; [|exact L4]. destruct H5 as [U5 L5].
  apply andthen_inv in H. destruct H as (s6 & H6 & H).
  assert (grows s5 s6 /\ (SYS2 E = true -> used s6 MO_SYS2 = true) /\ length (h_used (n_hw s6)) = NMSG E) as (G6 & U6 & L6).
  { destruct (SYS2 E).
    - pose proof (grows_define_obj _ _ _ _ _ _ _ _ _ _ H6). apply define_obj_used in H6; [|exact L5]. tauto.
    - minv1 H6. subst. split; [apply pre_refl|]. split; auto; discriminate. }
  clear H6.
  apply andthen_inv in H. destruct H as (s7 & H7 & H).
  assert (grows s6 s7 /\ (ASY E = true -> used s7 MO_ASYNC_DATA = true) /\ length (h_used (n_hw s7)) = NMSG E) as (G7 & U7 & L7).
  { destruct (ASY E).
    - pose proof (grows_define_obj _ _ _ _ _ _ _ _ _ _ H7). apply define_obj_used in H7; [|exact L6]. tauto.
    - minv1 H7. subst. split; [apply pre_refl|]. split; auto; discriminate. }
  clear H7.
  apply andthen_inv in H. destruct H as (s8 & H8 & H).
  pose proof (grows_define_obj _ _ _ _ _ _ _ _ _ _ H8) as G8. apply define_obj_used in H8; [|exact L7]. destruct H8 as [U8 L8].
  apply andthen_inv in H. destruct H as (s9 & H9 & H).
  assert (n_hw s9 = n_hw s8) as W9. { unfold sys_init in H9. minv1 H9. minv1 H0. minv1 H9. subst. reflexivity. }
  assert (n_hw s = n_hw s8) as W. { unfold sync_init in H. minv1 H. minv1 H0. minv1 H. subst. cbn. exact W9. }
  assert (h_rxtab (n_hw s) = []) as T.
  { rewrite W. destruct G4, G5, G6, G7, G8. congruence. }
  unfold HwI. rewrite T. cbn [map]. split; [|split; [intros mo []|constructor]].
  intros r Hr. unfold used. rewrite W. fold (used s8 r).
  destruct G4 as [G4 _], G5 as [G5 _], G6 as [G6 _], G7 as [G7 _], G8 as [G8 _].
  unfold reserved in Hr. cbn in Hr. destruct Hr as [<-|[<-|[<-|Hr]]]; auto.
  apply in_app_or in Hr. destruct Hr as [Hr|Hr].
  - destruct (SYS2 E); cbn in Hr; [|tauto]. destruct Hr as [<-|[]]. auto.
  - destruct (ASY E); cbn in Hr; [|tauto]. destruct Hr as [<-|[]]. auto.
Qed.
Lemma HwI_reached ops s : reached E ops s -> HwI E s.
Proof. intros (s0 & B & R). eapply HwR_run; [exact R | apply HwI_booted, B]. Qed.
Lemma WF_reached ops s : reached E ops s -> WF E s.
Proof.
  intros (s0 & (mem & st & orc & rate & B) & R). eapply wf_run; [exact R|].
  eapply wf_can_init; [exact B|]. apply wf_static.
Qed.
End Hw.
