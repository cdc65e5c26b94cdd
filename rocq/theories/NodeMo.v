(** Message objects of the modules (C33, C34) and the effect of a number change on them (C17). *)
From Verif Require Import Words WordsFacts Bits ErrModel NodeModel NodeLib NodeInv NodeSpec NodeHw NodeCnt NodeSync NodeRx NodeSilent NodePres NodeSysP NodeTx NodeNum NodeTxP NodeNr.

Lemma fixed_reserved E : fixed_mo E = reserved E.
Proof. reflexivity. Qed.
Definition filt (s : node) (mo : nat) := nth mo (h_filt (n_hw s)) None.

(** everything about message objects is the same *)
Definition moinfo (m : modl) := (m_type m, m_nr m, m_nrx m, map r_mo (m_rx m)).
Definition still (s s' : node) : Prop :=
  same_f moinfo s s' /\ k_actrl (n_cfg s') = k_actrl (n_cfg s) /\ k_nmod (n_cfg s') = k_nmod (n_cfg s) /\
  h_used (n_hw s') = h_used (n_hw s) /\ h_filt (n_hw s') = h_filt (n_hw s) /\ h_mask_ctrl (n_hw s') = h_mask_ctrl (n_hw s) /\
  h_mask_rx (n_hw s') = h_mask_rx (n_hw s) /\ h_rxtab (n_hw s') = h_rxtab (n_hw s).
#[export] Instance pre_still : Pre still.
Proof.
  unfold still. split.
  - intro. repeat split; reflexivity.
  - intros a b c (A1 & A2 & A3 & A4 & A5 & A6 & A7 & A8) (B1 & B2 & B3 & B4 & B5 & B6 & B7 & B8). split; [eapply pre_trans; eauto|]. repeat split; congruence.
Qed.
Lemma moinfo_upd_rx i g m : (forall o, r_mo (g o) = r_mo o) -> moinfo (upd_rx i g m) = moinfo m.
Proof. intro H. unfold moinfo, upd_rx. cbn. f_equal. apply (map_set_same r_mo _ _ _ rxo0). rewrite H. reflexivity. Qed.
Lemma moinfo_rx m m' i : moinfo m' = moinfo m -> r_mo (rxat m' i) = r_mo (rxat m i).
Proof. intro H. injection H as _ _ _ H. unfold rxat. change 0%nat with (r_mo rxo0). rewrite <- !(map_nth r_mo). rewrite H. reflexivity. Qed.
Ltac still_leaf := split; [first [reflexivity | apply same_f_upd; intro; first [reflexivity | apply moinfo_upd_rx; intro; reflexivity]] | repeat split; reflexivity].

Section Mo.
Variable E : env.
Hypothesis HE : env_ok E.

Lemma still_silent p st : pres still (set_silent_awake E p st).
Proof.
  unfold set_silent_awake, sync_off, sync_on, tx_data_on, tx_data_off.
  repeat ((simple apply pres_call_rx; [typeclasses eauto| intros; still_leaf]) || pres_tac1); still_leaf.
Qed.
Lemma still_part t on : pres still (set_active_critical t on).
Proof.
  unfold set_active_critical, sync_off, sync_on, tx_data_on, tx_data_off.
  repeat ((simple apply pres_call_rx; [typeclasses eauto| intros; still_leaf]) || pres_tac1); still_leaf.
Qed.
Lemma still_baud r : pres still (set_baudrate r).
Proof.
  unfold set_baudrate. refine (pres_bind _ _ _ _ _); [pres_tac|intro tab]. generalize ERR_OK.
  induction tab as [|x tab IH]; intro e; cbn [set_baudrate_loop]; [pres_tac|].
  destruct (r =? x); [|apply IH]. unfold hw_set_baudrate. repeat (simple apply IH || pres_tac1); still_leaf.
Qed.
Lemma still_mode m : pres still (set_node_mode m).
Proof. unfold set_node_mode. pres_tac; still_leaf. Qed.
Lemma still_sys_silent data nr st : pres still (sys_silent_awake E data nr st).
Proof. unfold sys_silent_awake. repeat (simple apply still_silent || pres_tac1); still_leaf. Qed.
Lemma still_cnfg a b c : pres still (tx_data_cnfg E a b c).
Proof. unfold tx_data_cnfg. pres_tac; still_leaf. Qed.
Lemma plain_still o : plain E o -> (forall d nr rxs txs, o <> OpAdd d nr rxs txs) -> pres still (step E o).
Proof.
  intros Po Ho. apply (kernel_step E); try typeclasses eauto; try (intros; still_leaf).
  destruct o; cbn [kernel plain] in *; auto; try (intro; still_leaf).
  - intro Hs. apply Po in Hs. destruct Hs as (H1 & H2 & _). unfold sys_kernel. change (b data 0) with (byte_at data 0). unfold cmd_of.
    repeat match goal with |- context [if byte_at data 0 =? ?k then _ else _] => destruct (N.eqb_spec (byte_at data 0) k); [cbv iota|] end; try exact I; try congruence.
    + split; [intro; apply still_mode|apply still_baud].
    + intro. apply still_sys_silent.
    + intro. apply still_sys_silent.
  - exfalso. eapply Ho; reflexivity.
  - unfold set_silent_awake_type_nr. repeat (simple apply still_silent || pres_tac1).
  - destruct Po.
  - unfold change_type_add. pres_tac; still_leaf.
  - apply still_mode.
  - apply still_baud.
  - destruct Po.
Qed.

(** objects in use keep their meaning: filters, control and data flags, registrations *)
Definition calm (s s' : node) : Prop :=
  (forall mo, used s mo = true -> ~ In mo (reserved E) -> filt s' mo = filt s mo) /\
  (forall mo, used s mo = true -> used s' mo = true) /\
  (forall mo, is_ctl s mo = true -> is_ctl s' mo = true) /\
  (forall mo, is_sync_mo mo s = true -> is_sync_mo mo s' = true) /\
  (exists l, h_rxtab (n_hw s') = h_rxtab (n_hw s) ++ l).
#[local] Instance pre_calm : Pre calm.
Proof.
  unfold calm. split.
  - intro. repeat split; auto. exists []. rewrite app_nil_r. reflexivity.
  - intros a b c (A1 & A2 & A3 & A4 & l1 & A5) (B1 & B2 & B3 & B4 & l2 & B5). repeat split; auto.
    + intros mo U N. rewrite B1; auto.
    + exists (l1 ++ l2). rewrite B5, A5, app_assoc. reflexivity.
Qed.
Lemma still_calm s s' : still s s' -> calm s s'.
Proof.
  intros (_ & _ & _ & H1 & H2 & H3 & H4 & H5). unfold calm, filt, used, is_ctl, is_sync_mo. rewrite H1, H2, H3, H4, H5. repeat split; auto. exists []. rewrite app_nil_r. reflexivity.
Qed.
Lemma bit_pow mo : (mo < 32)%nat -> bit mo = 2 ^ N.of_nat mo.
Proof.
  intro L. unfold bit, u32. rewrite N.shiftl_1_l. apply N.mod_small.
  assert (N.of_nat mo < 32) as Q by lia. change 4294967296 with (2 ^ 32). apply N.pow_lt_mono_r; lia.
Qed.
Lemma sync_mo_test mo s : (mo < 32)%nat -> is_sync_mo mo s = N.testbit (h_mask_rx (n_hw s)) (N.of_nat mo).
Proof.
  intro L. unfold is_sync_mo. rewrite (bit_pow _ L). destruct (N.testbit (h_mask_rx (n_hw s)) (N.of_nat mo)) eqn:T.
  - apply negb_true_iff, N.eqb_neq. intro Z. assert (N.testbit (N.land (2 ^ N.of_nat mo) (h_mask_rx (n_hw s))) (N.of_nat mo) = false) as Q by (rewrite Z; apply N.bits_0).
    rewrite N.land_spec, T, N.pow2_bits_true in Q. discriminate.
  - apply negb_false_iff, N.eqb_eq. apply N.bits_inj. intro k. rewrite N.land_spec, N.bits_0. destruct (N.eq_dec k (N.of_nat mo)) as [->|Nk]; [rewrite T; apply andb_false_r|].
    rewrite N.pow2_bits_false by congruence. reflexivity.
Qed.
Lemma land_mono a m x : negb (N.land a m =? 0) = true -> negb (N.land a (N.lor m x) =? 0) = true.
Proof.
  rewrite !negb_true_iff, !N.eqb_neq. intros H Q. apply H. rewrite N.land_lor_distr_r in Q. apply N.lor_eq_0_iff in Q. tauto.
Qed.
Lemma tb_mono m x k : N.testbit m k = true -> N.testbit (N.lor m x) k = true.
Proof. intro H. rewrite N.lor_spec, H. reflexivity. Qed.
(** what one definition does *)
Lemma define_obj_full mo id mask dlc rx sv sy s e s' : define_obj E mo id mask dlc rx sv sy s = Ret (e, s') ->
  n_cfg s' = n_cfg s /\ h_rxtab (n_hw s') = h_rxtab (n_hw s) /\
  (forall k, used s k = true -> used s' k = true) /\ (forall k, k <> mo -> filt s' k = filt s k) /\
  (forall k, is_sync_mo k s = true -> is_sync_mo k s' = true) /\
  (forall k, is_ctl s' k = is_ctl s k || (match sv with SvAsyncCtrl => true | _ => false end && (e =? ERR_OK) && (k =? mo)%nat)) /\
  (e = ERR_OK -> (mo < NMSG E)%nat /\ (length (h_used (n_hw s)) = NMSG E -> used s' mo = true) /\
     (length (h_filt (n_hw s)) = NMSG E -> filt s' mo = if rx then Some (id, mask) else None) /\
     (match sv with SvRx => sy | _ => false end = true -> is_sync_mo mo s' = true)).
Proof.
  intro H. pose proof (grows_define_obj E _ _ _ _ _ _ _ _ _ _ H) as [G _]. pose proof (define_obj_inv E _ _ _ _ _ _ _ _ _ _ H) as (T & U & Cf & _).
  split; [exact Cf|]. split; [exact T|]. split; [exact G|]. clear T G Cf. unfold define_obj in H.
  assert (forall c, c <> ERR_OK -> ret c s = Ret (e, s') -> 
    (forall k, k <> mo -> filt s' k = filt s k) /\ (forall k, is_sync_mo k s = true -> is_sync_mo k s' = true) /\
    (forall k, is_ctl s' k = is_ctl s k || (match sv with SvAsyncCtrl => true | _ => false end && (e =? ERR_OK) && (k =? mo)%nat)) /\
  (e = ERR_OK -> (mo < NMSG E)%nat /\ (length (h_used (n_hw s)) = NMSG E -> used s' mo = true) /\
     (length (h_filt (n_hw s)) = NMSG E -> filt s' mo = if rx then Some (id, mask) else None) /\
     (match sv with SvRx => sy | _ => false end = true -> is_sync_mo mo s' = true))) as Early.
  { intros c Nc Hc. apply ret_inv in Hc. destruct Hc as [-> ->]. split; [auto|]. split; [auto|]. split; [|intro; contradiction].
    intro k. apply N.eqb_neq in Nc. rewrite Nc, andb_false_r, orb_false_r. reflexivity. }
  destruct (CHKDEF E && negb (mo <? NMSG E)%nat); [eapply Early; [|exact H]; discriminate|].
  destruct (CHKDEF E && (2047 <? id)); [eapply Early; [|exact H]; discriminate|].
  destruct (CHKDEF E && (8 <? u8 dlc)); [eapply Early; [|exact H]; discriminate|].
  clear Early. unfold andthen in H. mbind H as e1 s1 H1. unfold hw_define in H1. mbind H1 as u s2 H2. apply guard_inv in H2. destruct H2 as [Lm ->]. apply Nat.ltb_lt in Lm.
  assert (mo < 32)%nat as L32 by (destruct HE as (_ & ? & _); lia).
  mbind H1 as u2 s2 H2. apply modify_inv in H2. mbind H1 as ok s3 H3.
  assert (n_hw s3 = n_hw s2) as Q3 by (unfold ask in H3; destruct (n_orc s2); injection H3 as _ <-; reflexivity).
  destruct ok.
  - mbind H1 as u4 s4 H4. apply modify_inv in H4. apply ret_inv in H1. destruct H1 as [-> ->]. change (ERR_OK =? ERR_OK) with true in H. cbv iota in H.
    assert (n_hw s4 = set_h_filt (set_h_used (n_hw s) (set_nth (h_used (n_hw s)) mo true)) (set_nth (h_filt (n_hw s)) mo (if rx then Some (id, mask) else None))) as Q4.
    { subst s4. unfold upd_hw. cbn. rewrite Q3. subst s2. reflexivity. }
    mbind H as u5 s5 H5. apply ret_inv in H. destruct H as [-> ->].
    assert (exists mr ma mc, n_hw s5 = set_h_mask_ctrl (set_h_mask_async (set_h_mask_rx (n_hw s4) mr) ma) mc /\
      (mr = N.lor (h_mask_rx (n_hw s)) (bit mo) \/ mr = h_mask_rx (n_hw s) /\ match sv with SvRx => sy | _ => false end = false) /\
      (mc = if match sv with SvAsyncCtrl => true | _ => false end then N.lor (h_mask_ctrl (n_hw s)) (bit mo) else h_mask_ctrl (n_hw s))) as (mr & ma & mc & Q5 & Mr & Mc).
    { assert (h_mask_rx (n_hw s4) = h_mask_rx (n_hw s) /\ h_mask_ctrl (n_hw s4) = h_mask_ctrl (n_hw s)) as [Q6 Q7] by (rewrite Q4; split; reflexivity).
      rewrite <- Q6, <- Q7. exists (h_mask_rx (n_hw s5)), (h_mask_async (n_hw s5)), (h_mask_ctrl (n_hw s5)).
      destruct sv; [|destruct sy| |]; first [apply modify_inv in H5 | apply ret_inv in H5; destruct H5 as [_ H5]]; subst s5; unfold upd_hw; destruct (n_hw s4); cbn; auto 10. }
    unfold filt, is_sync_mo, is_ctl, used. rewrite Q5, Q4. cbn [h_filt h_mask_rx h_mask_ctrl h_used set_h_filt set_h_mask_ctrl set_h_mask_async set_h_mask_rx set_h_used].
    split; [intros k Nk; apply nth_set_nth_other; congruence|]. split.
    { intros k Hk. destruct Mr as [->|[-> _]]; auto. apply land_mono, Hk. }
    split.
    { intro k. subst mc. change (ERR_OK =? ERR_OK) with true. destruct sv; cbn [andb]; rewrite ?orb_false_r; auto. rewrite N.lor_spec, (bit_pow _ L32). f_equal.
      destruct (Nat.eqb_spec k mo) as [->|Nk]; [apply N.pow2_bits_true|apply N.pow2_bits_false; lia]. }
    intros _. split; [exact Lm|]. split; [intro L; apply nth_set_nth_same; lia|]. split; [intro L; apply nth_set_nth_same; lia|].
    intro Hsy. destruct Mr as [->|[_ Q]]; [|congruence]. rewrite N.land_lor_distr_r, N.land_diag. apply negb_true_iff, N.eqb_neq. intro Z. apply N.lor_eq_0_iff in Z. destruct Z as [_ Z].
    rewrite (bit_pow _ L32) in Z. apply N.pow_nonzero in Z; lia.
  - apply ret_inv in H1. destruct H1 as [-> ->]. change (E_INIT_FAILED =? ERR_OK) with false in H. cbv iota in H. apply ret_inv in H. destruct H as [-> ->].
    assert (h_filt (n_hw s3) = h_filt (n_hw s) /\ h_mask_rx (n_hw s3) = h_mask_rx (n_hw s) /\ h_mask_ctrl (n_hw s3) = h_mask_ctrl (n_hw s)) as (Q4 & Q5 & Q6) by (rewrite Q3; subst s2; repeat split; reflexivity).
    unfold filt, is_sync_mo, is_ctl. rewrite Q4, Q5, Q6. repeat split; auto; try discriminate. intro k. change (E_INIT_FAILED =? ERR_OK) with false. rewrite andb_false_r, orb_false_r. reflexivity.
Qed.
Lemma calm_define_obj mo id mask dlc rx sv sy s e s' : used s mo = false \/ In mo (reserved E) -> define_obj E mo id mask dlc rx sv sy s = Ret (e, s') -> calm s s'.
Proof.
  intros Hm H. apply define_obj_full in H. destruct H as (_ & T & U & F & Sy & C & _). split; [|split; [exact U|split; [|split; [exact Sy|exists []; rewrite T, app_nil_r; reflexivity]]]].
  - intros k Uk Nk. apply F. intros ->. destruct Hm as [Hm|Hm]; [congruence|contradiction].
  - intros k Hk. rewrite C, Hk. reflexivity.
Qed.

(** ** control objects, in every history *)
Definition CtlI (s : node) : Prop :=
  HwI E s /\ forall mo, is_ctl s mo = true -> used s mo = true /\ ~ In mo (reserved E) /\ ~ In mo (map fst (h_rxtab (n_hw s))).
Definition CtlR (s s' : node) : Prop := CtlI s -> CtlI s'.
#[local] Instance pre_CtlR : Pre CtlR := pre_imp CtlI.
Lemma still_CtlR s s' : still s s' -> CtlR s s'.
Proof.
  intros (_ & _ & _ & H1 & H2 & H3 & H4 & H5). unfold CtlR, CtlI, HwI, is_ctl, used. rewrite H1, H3, H5. auto.
Qed.
Lemma CtlR_still {A} (m : M A) : pres still m -> pres CtlR m.
Proof. apply pres_weaken. exact still_CtlR. Qed.
Lemma CtlR_define mo id mask dlc rx sv sy : sv <> SvAsyncCtrl -> pres CtlR (define_obj E mo id mask dlc rx sv sy).
Proof.
  intros Ns s e s' H [I1 I2]. pose proof (grows_define_obj E _ _ _ _ _ _ _ _ _ _ H) as G. apply define_obj_full in H. destruct H as (_ & T & U & _ & _ & C & _).
  split; [eapply grows_HwR; eauto|]. intros k Hk. rewrite C in Hk. rewrite T. destruct sv; try congruence; cbn [andb] in Hk; rewrite orb_false_r in Hk; destruct (I2 k Hk) as (? & ? & ?); auto.
Qed.
Lemma CtlR_ctrl a id : pres CtlR (r <- get_async_ctrl_obj E a ;;
      match r with
      | (Some mo, e) => define_obj E mo id MASK_ONE 8 true SvAsyncCtrl false
      | (None, e) => ret e
      end).
Proof.
  intros s e s' H I. mbind H as r s1 H1. unfold get_async_ctrl_obj in H1. destruct (MAXM E <=? a)%nat; [minv_all; exact I|].
  mbind H1 as om s2 H2. destruct om as [mo|].
  - apply next_free_spec in H2. destruct H2 as (-> & Hu & Hl). mbind H1 as u s3 H3. apply modify_inv in H3. apply ret_inv in H1. destruct H1 as [-> ->].
    pose proof (grows_define_obj E _ _ _ _ _ _ _ _ _ _ H) as G. pose proof (define_obj_used E) as Du. pose proof (define_obj_inv E _ _ _ _ _ _ _ _ _ _ H) as (_ & U1 & _). apply define_obj_full in H. destruct H as (_ & T & U & _ & _ & C & _).
    destruct I as [I1 I2]. assert (HwI E s3) as I3 by (subst s3; exact I1). split; [eapply grows_HwR; eauto|]. intros k Hk. rewrite T. rewrite C in Hk.
    assert (is_ctl s3 k = is_ctl s k /\ h_rxtab (n_hw s3) = h_rxtab (n_hw s) /\ used s3 k = used s k) as (Q1 & Q2 & Q3) by (subst s3; repeat split; reflexivity). rewrite Q1 in Hk. rewrite Q2.
    apply orb_prop in Hk. destruct Hk as [Hk|Hk]; [destruct (I2 k Hk) as (? & ? & ?); repeat split; auto; apply U; rewrite Q3; auto|].
    apply andb_prop in Hk. destruct Hk as [Hk1 Hk]. cbn [andb] in Hk1. apply N.eqb_eq in Hk1. apply Nat.eqb_eq in Hk. subst k. destruct (U1 Hk1) as [U2 _]. destruct I1 as (J1 & J2 & J3). split; [|split].
    + unfold used. rewrite U2. apply nth_set_nth_same. subst s3. exact Hl.
    + intro Q. apply J1 in Q. congruence.
    + intro Q. apply J2 in Q. destruct Q. congruence.
  - unfold next_free in H2. apply gets_inv in H2. destruct H2 as [_ ->]. minv_all. exact I.
Qed.
Lemma CtlR_shared_objs a c d : pres CtlR (shared_objs E a c d).
Proof.
  unfold shared_objs. destruct (ASY E).
  - refine (pres_andthen _ _ _ _ _); [refine (pres_andthen _ _ _ _ _); [apply CtlR_ctrl|apply CtlR_define; discriminate]|].
    repeat ((simple apply CtlR_define; discriminate) || pres_tac1).
  - repeat ((simple apply CtlR_define; discriminate) || pres_tac1).
Qed.
Lemma CtlR_silent p st : pres CtlR (set_silent_awake E p st).
Proof. apply CtlR_still, still_silent. Qed.
Lemma CtlR_shared a b c d : pres CtlR (define_shared E a b c d).
Proof.
  intros s e s' H. rewrite define_shared_eq in H. revert s e s' H.
  change (pres CtlR (shared_objs E a c d >>> (st <- gets (fun s => silat s b);; set_silent_awake E b st))).
  repeat (simple apply CtlR_shared_objs || simple apply CtlR_silent || pres_tac1).
Qed.
Lemma CtlR_cnfg a b c : pres CtlR (tx_data_cnfg E a b c).
Proof. apply CtlR_still, still_cnfg. Qed.
Lemma CtlR_leaf s s' : n_hw s' = n_hw s -> CtlR s s'.
Proof. unfold CtlR, CtlI, HwI, is_ctl, used. intros ->. auto. Qed.
Lemma CtlR_rx_slot pos nr i : pres CtlR (rx_slot E pos nr i).
Proof.
  intros s e s' H [I1 I2]. split; [eapply HwR_rx_slot; eauto|]. unfold rx_slot in H.
  mbind H as u1 s1 H1. apply modify_inv in H1. mbind H as om s2 H2. destruct om as [mo|].
  - apply next_free_spec in H2. destruct H2 as (-> & Hu & Hl).
    mbind H as u3 s3 H3. apply modify_inv in H3. mbind H as dlc s4 H4. apply gets_inv in H4. destruct H4 as [_ ->].
    assert (forall k, is_ctl s3 k = is_ctl s k /\ h_rxtab (n_hw s3) = h_rxtab (n_hw s) /\ used s3 k = used s k) as Q by (subst s3 s1; repeat split; reflexivity).
    unfold andthen in H. mbind H as e5 s5 H5. apply define_obj_full in H5. destruct H5 as (_ & T & U & _ & _ & C & _).
    assert (forall k, is_ctl s5 k = true -> is_ctl s k = true) as C5. { intros k Hk. rewrite C in Hk. cbn [andb] in Hk. rewrite orb_false_r in Hk. destruct (Q k) as (<- & _). exact Hk. }
    assert (forall k, is_ctl s5 k = true -> used s5 k = true /\ ~ In k (reserved E) /\ ~ In k (map fst (h_rxtab (n_hw s5)))) as I5.
    { intros k Hk. apply C5 in Hk. destruct (I2 k Hk) as (A1 & A2 & A3). destruct (Q k) as (_ & Q2 & Q3). rewrite T, Q2. repeat split; auto. apply U. rewrite Q3. exact A1. }
    destruct (e5 =? ERR_OK); [|apply ret_inv in H; destruct H as [_ ->]; exact I5].
    unfold rx_data_cnfg in H. mbind H as tab s6 H6. apply gets_inv in H6. destruct H6 as [-> ->].
    destruct (_ <? _)%nat; [|apply ret_inv in H; destruct H as [_ ->]; exact I5].
    mbind H as u7 s7 H7. apply modify_inv in H7. apply ret_inv in H. destruct H as [_ ->]. subst s7.
    intros k Hk. destruct (I5 k Hk) as (A1 & A2 & A3). split; [exact A1|]. split; [exact A2|]. cbn. rewrite map_app, in_app_iff. intros [B|[B|[]]]; [auto|]. cbn in B. subst k.
    apply C5 in Hk. destruct (I2 _ Hk) as (B & _). unfold used in *. subst s1. cbn in Hu. congruence.
  - apply ret_inv in H. destruct H as [_ ->]. unfold next_free in H2. apply gets_inv in H2. destruct H2 as [_ ->]. subst. exact I2.
Qed.
Lemma CtlR_add d nr rxs txs : pres CtlR (add_module E d nr rxs txs).
Proof.
  unfold add_module, set_module. repeat (simple apply CtlR_rx_slot || simple apply CtlR_shared || simple apply CtlR_cnfg || pres_tac1); apply CtlR_leaf; reflexivity.
Qed.
Lemma CtlR_nr_ids t n a : pres CtlR (change_nr_ids E t n a).
Proof.
  unfold change_nr_ids. repeat (simple apply CtlR_shared || (simple apply CtlR_define; discriminate) || simple apply CtlR_cnfg || pres_tac1); apply CtlR_leaf; reflexivity.
Qed.
Lemma CtlR_nr p n : pres CtlR (change_nr E p n).
Proof. unfold change_nr. repeat (simple apply CtlR_nr_ids || simple apply CtlR_silent || pres_tac1). Qed.
Lemma CtlR_type p t : pres CtlR (change_type E p t).
Proof. unfold change_type. repeat (simple apply CtlR_cnfg || pres_tac1); apply CtlR_leaf; reflexivity. Qed.
Lemma CtlR_step o : pres CtlR (step E o).
Proof.
  apply (kernel_step E); try typeclasses eauto; try (intros; apply CtlR_leaf; reflexivity).
  destruct o; cbn [kernel]; auto; try (intro; apply CtlR_leaf; reflexivity).
  - intros _. unfold sys_kernel. destruct (cmd_of (b data 0)); auto; try (intro; apply CtlR_still, still_sys_silent).
    + split; [intro; apply CtlR_still, still_mode|apply CtlR_still, still_baud].
    + intro. apply CtlR_nr.
    + intro. apply CtlR_type.
  - apply CtlR_add.
  - unfold set_silent_awake_type_nr. repeat (simple apply CtlR_silent || pres_tac1).
  - apply CtlR_nr_ids.
  - unfold change_type_add. pres_tac; apply CtlR_leaf; reflexivity.
  - apply CtlR_still, still_mode.
  - apply CtlR_still, still_baud.
  - apply CtlR_still, still_part.
Qed.
Lemma CtlI_reached ops s : reached E ops s -> CtlI s.
Proof.
  intros (s0 & B & R). eapply (pres_run E CtlR CtlR_step); [exact R|]. split; [apply HwI_booted, B|].
  intros mo Hm. exfalso. destruct B as (mem & st & orc & rate & H). unfold can_init in H.
  apply andthen_inv in H. destruct H as (s1 & H1 & H). apply andthen_inv in H. destruct H as (s2 & H2 & H). apply andthen_inv in H. destruct H as (s3 & H3 & H).
  assert (h_mask_ctrl (n_hw s3) = 0) as Z.
  { unfold config_init in H1. unfold msg_objs_init in H3. minv_all. reflexivity. }
  assert (h_mask_ctrl (n_hw s0) = h_mask_ctrl (n_hw s3)) as Q.
  { revert H. assert (forall m, pres (fun a c : node => h_mask_ctrl (n_hw c) = h_mask_ctrl (n_hw a)) m -> forall (e:N) s1 s, m s1 = Ret (e, s) -> h_mask_ctrl (n_hw s) = h_mask_ctrl (n_hw s1)) as K by (intros m P e x y Hx; exact (P _ _ _ Hx)).
    assert (Pre (fun a c : node => h_mask_ctrl (n_hw c) = h_mask_ctrl (n_hw a))) as PP by (split; intros; congruence).
    apply K. unfold define_obj, hw_define, sys_init, sync_init. repeat pres_tac1; reflexivity. }
  unfold is_ctl in Hm. rewrite Q, Z, N.bits_0 in Hm. discriminate.
Qed.

(** ** additions *)
Lemma for_err_ind (I : nat -> node -> Prop) f n : forall i s s', (forall j sa sb, (i <= j < i + n)%nat -> I j sa -> f j sa = Ret (ERR_OK, sb) -> I (S j) sb) ->
  I i s -> for_err n i f s = Ret (ERR_OK, s') -> I (i + n)%nat s'.
Proof.
  induction n as [|n IH]; intros i s s' Hf Hi H; cbn [for_err] in H.
  - apply ret_inv in H. destruct H as [_ ->]. rewrite Nat.add_0_r. exact Hi.
  - mbind H as e s1 H1. destruct (e =? ERR_OK) eqn:Q; [|apply ret_inv in H; destruct H as [<- _]; discriminate]. apply N.eqb_eq in Q. subst e.
    replace (i + S n)%nat with (S i + n)%nat by lia. apply (IH (S i) s1 s').
    + intros j sa sb Hj. apply Hf. lia.
    + eapply Hf; eauto. lia.
    + exact H.
Qed.
Lemma rx_upd_mo m i g j : (i < length (m_rx m))%nat -> r_mo (rxat (upd_rx i g m) j) = if (j =? i)%nat then r_mo (g (rxat m i)) else r_mo (rxat m j).
Proof.
  intro L. unfold rxat, upd_rx. cbn [m_rx set_m_rx]. destruct (Nat.eqb_spec j i) as [->|N].
  - rewrite nth_set_nth_same by exact L. reflexivity.
  - rewrite nth_set_nth_other by congruence. reflexivity.
Qed.
(** the other parts of the configuration *)
Definition moid (m : modl) := (m_type m, m_nr m, m_nrx m).
Definition aside (pos a : nat) (s s' : node) : Prop :=
  (forall p, p <> pos -> modat s' p = modat s p) /\ moid (modat s' pos) = moid (modat s pos) /\ length (tab_of s') = length (tab_of s) /\
  (forall n, n <> a -> ctl_mo s' n = ctl_mo s n) /\ nmod s' = nmod s.
#[local] Instance pre_aside pos a : Pre (aside pos a).
Proof.
  unfold aside. split; [intro; repeat split; reflexivity|]. intros x y z (A1 & A2 & A3 & A4 & A5) (B1 & B2 & B3 & B4 & B5). repeat split; try congruence.
  - intros p Hp. rewrite B1, A1; auto.
  - intros n Hn. rewrite B4, A4; auto.
Qed.
Lemma aside_upd pos a g s : (forall m, moid (g m) = moid m) -> aside pos a s (upd_mod pos g s).
Proof.
  intro Hg. unfold aside. split; [|split; [|split; [|split; reflexivity]]].
  - intros p Hp. unfold modat, tab_of, upd_mod. cbn. apply nth_set_nth_other. congruence.
  - apply (same_f_at moid), same_f_upd, Hg.
  - apply tab_upd_mod.
Qed.
Lemma aside_cfg pos a s s' : n_cfg s' = n_cfg s -> aside pos a s s'.
Proof. intro H. unfold aside, modat, tab_of, ctl_mo, nmod. rewrite H. repeat split; reflexivity. Qed.
Lemma aside_define pos a mo id mask dlc rx sv sy : pres (aside pos a) (define_obj E mo id mask dlc rx sv sy).
Proof. intros s e s' H. apply aside_cfg. eapply define_obj_full, H. Qed.
Lemma aside_rx_slot pos a nr i : pres (aside pos a) (rx_slot E pos nr i).
Proof.
  unfold rx_slot, next_free, rx_data_cnfg. repeat (simple apply aside_define || pres_tac1); first [apply aside_upd; reflexivity | apply aside_cfg; reflexivity].
Qed.
Lemma aside_shared pos a c d : pres (aside pos a) (shared_objs E a c d).
Proof.
  unfold shared_objs, get_async_ctrl_obj, next_free. repeat (simple apply aside_define || pres_tac1).
  repeat split; try reflexivity. intros k Hk. unfold ctl_mo. cbn. apply nth_set_nth_other. congruence.
Qed.
Lemma aside_tx pos a nr n i : pres (aside pos a) (for_err n i (fun i => modify (upd_mod pos (upd_txo i (fun o => set_t_dlc_s o (t_dlc o)))) ;;; tx_data_cnfg E pos i nr)).
Proof. unfold tx_data_cnfg. pres_tac; first [apply aside_upd; reflexivity | apply aside_cfg; reflexivity]. Qed.
Lemma still_tx pos nr n i : pres still (for_err n i (fun i => modify (upd_mod pos (upd_txo i (fun o => set_t_dlc_s o (t_dlc o)))) ;;; tx_data_cnfg E pos i nr)).
Proof. repeat (simple apply still_cnfg || pres_tac1); still_leaf. Qed.

Lemma rx_slot_calm pos nr i : pres calm (rx_slot E pos nr i).
Proof.
  intros s e s' H. unfold rx_slot in H. mbind H as u1 s1 H1. apply modify_inv in H1. assert (calm s s1) as C1 by (apply still_calm; subst s1; still_leaf).
  mbind H as om s2 H2. destruct om as [mo|].
  - apply next_free_spec in H2. destruct H2 as (-> & Hu & Hl). mbind H as u3 s3 H3. apply modify_inv in H3. assert (calm s1 s3) as C3.
    { subst s3. unfold calm, filt, used, is_ctl, is_sync_mo. cbn. repeat split; auto. exists []. rewrite app_nil_r. reflexivity. }
    mbind H as dlc s4 H4. apply gets_inv in H4. destruct H4 as [_ ->]. unfold andthen in H. mbind H as e5 s5 H5.
    assert (calm s3 s5) as C5 by (eapply calm_define_obj; [left|exact H5]; subst s3; exact Hu).
    assert (calm s s5) as C by (eapply pre_trans; [|exact C5]; eapply pre_trans; eauto). destruct (e5 =? ERR_OK); [|apply ret_inv in H; destruct H as [_ ->]; exact C].
    eapply pre_trans; [exact C|]. unfold rx_data_cnfg in H. mbind H as tab s6 H6. apply gets_inv in H6. destruct H6 as [-> ->].
    destruct (_ <? _)%nat; [|apply ret_inv in H; destruct H as [_ ->]; apply pre_refl].
    mbind H as u7 s7 H7. apply modify_inv in H7. apply ret_inv in H. destruct H as [_ ->]. subst s7.
    unfold calm, filt, used, is_ctl, is_sync_mo. cbn. repeat split; auto. eexists. reflexivity.
  - unfold next_free in H2. apply gets_inv in H2. destruct H2 as [_ ->]. apply ret_inv in H. destruct H as [_ ->]. exact C1.
Qed.
Lemma rx_slot_ok pos nr i s s' : WF E s -> (pos < MAXM E)%nat -> (i < NOBJ)%nat -> rx_slot E pos nr i s = Ret (ERR_OK, s') ->
  let mo := rx_mo s' pos i in
  used s mo = false /\ used s' mo = true /\ registered s' mo pos /\ is_sync_mo mo s' = true /\ filt s' mo = Some (can_ident BASE_RX nr i, MASK_ONE) /\
  (forall j, j <> i -> rx_mo s' pos j = rx_mo s pos j).
Proof.
  intros W Lp Li H. pose proof (wf_rx_slot E pos nr i) as Wf. unfold rx_slot in H. mbind H as u1 s1 H1. apply modify_inv in H1.
  assert (WF E s1) as W1. { subst s1. revert W. apply wf_upd_mod. intros. apply modok_upd_rx. assumption. }
  mbind H as om s2 H2. destruct om as [mo|]; [|apply ret_inv in H; destruct H; discriminate].
  apply next_free_spec in H2. destruct H2 as (-> & Hu & Hl). mbind H as u3 s3 H3. apply modify_inv in H3.
  assert (WF E s3) as W3. { subst s3. revert W1. apply wf_upd_mod. intros. apply modok_upd_rx. assumption. }
  mbind H as dlc s4 H4. apply gets_inv in H4. destruct H4 as [_ ->]. apply andthen_inv in H. destruct H as (s5 & H5 & H).
  apply define_obj_full in H5. destruct H5 as (Cf & T & U & F & Sy & C & Ok). destruct (Ok eq_refl) as (Lm & Um & Fm & Sm). destruct W3 as (_ & _ & Wh & _).
  unfold rx_data_cnfg in H. mbind H as tab s6 H6. apply gets_inv in H6. destruct H6 as [-> ->].
  destruct (_ <? _)%nat; [|apply ret_inv in H; destruct H; discriminate].
  mbind H as u7 s7 H7. apply modify_inv in H7. apply ret_inv in H. destruct H as [_ ->].
  assert (forall j, rx_mo s7 pos j = if (j =? i)%nat then mo else rx_mo s pos j) as Hr.
  { intro j. subst s7. unfold rx_mo, modat, tab_of. cbn [upd_hw set_n_hw n_cfg]. rewrite Cf. subst s3. fold (tab_of (upd_mod pos (upd_rx i (fun o => set_r_mo o mo)) s1)). fold (modat (upd_mod pos (upd_rx i (fun o => set_r_mo o mo)) s1) pos).
    rewrite modat_upd_mod, Nat.eqb_refl by (rewrite (tab_len E s1 W1); exact Lp). rewrite rx_upd_mo by (destruct (modat_ok E s1 pos W1) as (_ & _ & _ & _ & M5 & _); rewrite M5; exact Li).
    destruct (j =? i)%nat; [reflexivity|]. subst s1. fold (tab_of s). fold (modat s pos). rewrite modat_upd_mod, Nat.eqb_refl by (rewrite (tab_len E s W); exact Lp).
    rewrite rx_upd_mo by (destruct (modat_ok E s pos W) as (_ & _ & _ & _ & M5 & _); rewrite M5; exact Li). destruct (Nat.eqb_spec j i) as [->|]; reflexivity. }
  cbn zeta. rewrite (Hr i), Nat.eqb_refl. split; [subst s1; exact Hu|]. split; [subst s7; apply Um, Wh|].
  split; [subst s7; unfold registered; cbn; apply in_or_app; right; left; reflexivity|]. split; [subst s7; apply Sm; reflexivity|]. split; [subst s7; apply Fm, Wh|].
  intros j Hj. rewrite Hr. apply Nat.eqb_neq in Hj. rewrite Hj. reflexivity.
Qed.
(** object [mo] is registered for [pos], listens to [id], and was free in [s0] *)
Definition owned (s0 s : node) (pos mo : nat) (id : N) : Prop :=
  used s0 mo = false /\ used s mo = true /\ registered s mo pos /\ is_sync_mo mo s = true /\ filt s mo = Some (id, MASK_ONE) /\ ~ In mo (reserved E).
Lemma owned_calm s0 s s' pos mo id : calm s s' -> owned s0 s pos mo id -> owned s0 s' pos mo id.
Proof.
  intros (C1 & C2 & C3 & C4 & l & C5) (O1 & O2 & O3 & O4 & O5 & O6). repeat split; auto.
  - unfold registered in *. rewrite C5. apply in_or_app. auto.
  - rewrite C1; auto.
Qed.
Lemma rx_loop_ok pos nr n s s' : WF E s -> HwI E s -> (pos < MAXM E)%nat -> (n <= NOBJ)%nat -> for_err n 0 (rx_slot E pos nr) s = Ret (ERR_OK, s') ->
  calm s s' /\ forall j, (j < n)%nat -> owned s s' pos (rx_mo s' pos j) (can_ident BASE_RX nr j).
Proof.
  intros W I Lp Ln H.
  enough (WF E s' /\ HwI E s' /\ calm s s' /\ forall j, (j < 0 + n)%nat -> owned s s' pos (rx_mo s' pos j) (can_ident BASE_RX nr j)) as (_ & _ & Q) by exact Q.
  eapply (for_err_ind (fun k sk => WF E sk /\ HwI E sk /\ calm s sk /\ forall j, (j < k)%nat -> owned s sk pos (rx_mo sk pos j) (can_ident BASE_RX nr j))); [| |exact H].
  - intros k sa sb Hk (Wa & Ia & Ca & Oa) Hs. pose proof (HwR_rx_slot E _ _ _ _ _ _ Hs Ia) as Ib. pose proof (wf_rx_slot E _ _ _ _ _ _ Hs Wa) as Wb. pose proof (rx_slot_calm _ _ _ _ _ _ Hs) as Cb.
    apply rx_slot_ok in Hs; auto; [|lia]. destruct Hs as (S1 & S2 & S3 & S4 & S5 & S6). split; [exact Wb|]. split; [exact Ib|]. split; [eapply pre_trans; eauto|].
    intros j Hj. destruct (Nat.eq_dec j k) as [->|Nj].
    + split; [|split; [exact S2|split; [exact S3|split; [exact S4|split; [exact S5|]]]]].
      * destruct (used s (rx_mo sb pos k)) eqn:Us; auto. destruct Ca as (_ & Ca & _). apply Ca in Us. congruence.
      * destruct Ib as (_ & Ib & _). apply Ib. apply (in_map fst) in S3. exact S3.
    + rewrite S6 by exact Nj. eapply owned_calm; [exact Cb|]. apply Oa. lia.
  - split; [exact W|]. split; [exact I|]. split; [apply pre_refl|]. intros j Hj. lia.
Qed.
Lemma shared_calm a c d : pres calm (shared_objs E a c d).
Proof.
  unfold shared_objs. assert (In MO_SYS1 (reserved E)) as R1 by (right; left; reflexivity).
  assert (forall id mask dlc rx sv sy mo, In mo (reserved E) -> pres calm (define_obj E mo id mask dlc rx sv sy)) as Df by (intros; intros x e y Hx; eapply calm_define_obj; eauto).
  refine (pres_andthen _ _ _ _ _); [|refine (pres_andthen _ _ _ _ _); [apply Df, R1|]].
  - destruct (ASY E) eqn:As; [|pres_tac]. refine (pres_andthen _ _ _ _ _).
    + intros s e s' H. mbind H as r s1 H1. unfold get_async_ctrl_obj in H1. destruct (MAXM E <=? a)%nat; [minv_all; apply pre_refl|].
      mbind H1 as om s2 H2. destruct om as [mo|].
      * apply next_free_spec in H2. destruct H2 as (-> & Hu & Hl). mbind H1 as u s3 H3. apply modify_inv in H3. apply ret_inv in H1. destruct H1 as [-> ->].
        apply calm_define_obj in H; [|left; subst s3; exact Hu]. subst s3. exact H.
      * unfold next_free in H2. apply gets_inv in H2. destruct H2 as [_ ->]. minv_all. apply pre_refl.
    + apply Df. unfold reserved. rewrite As. apply in_or_app. right. apply in_or_app. right. left. reflexivity.
  - destruct (SYS2 E) eqn:S2; [|pres_tac]. apply Df. unfold reserved. rewrite S2. apply in_or_app. right. left. reflexivity.
Qed.
(** the filters of the shared objects after a successful definition *)
Definition shared_filters (s : node) (mask : N) : Prop :=
  filt s MO_SYS1 = Some (ID_SYS, N.lor MASK_CLASS mask) /\ (SYS2 E = true -> filt s MO_SYS2 = Some (ID_SYS, N.lor MASK_CLASS mask)) /\
  (ASY E = true -> filt s MO_ASYNC_DATA = Some (BASE_DATA_RX, N.lor MASK_CLASS mask)).
Definition ctl_owned (s0 s : node) (mo : nat) (id : N) : Prop :=
  used s0 mo = false /\ used s mo = true /\ is_ctl s mo = true /\ filt s mo = Some (id, MASK_ONE) /\ ~ In mo (reserved E).
Lemma shared_ok a nr mask s s' : WF E s -> HwI E s -> shared_objs E a nr mask s = Ret (ERR_OK, s') ->
  shared_filters s' mask /\ (ASY E = true -> (a < MAXM E)%nat /\ ctl_owned s s' (ctl_mo s' a) (can_ident BASE_CTRL_RX nr 0)).
Proof.
  intros W I H. unfold shared_objs in H. apply andthen_inv in H. destruct H as (s1 & HA & H). apply andthen_inv in H. destruct H as (s2 & HB & HC).
  assert (forall mo id m dlc rx sv sy x y, WF E x -> define_obj E mo id m dlc rx sv sy x = Ret (ERR_OK, y) -> filt y mo = (if rx then Some (id, m) else None)) as Df.
  { intros mo id m dlc rx sv sy x y Wx Hx. apply define_obj_full in Hx. destruct Hx as (_ & _ & _ & _ & _ & _ & Ok). destruct (Ok eq_refl) as (_ & _ & Q & _). apply Q. apply Wx. }
  assert (forall mo id m dlc rx sv sy x y k, define_obj E mo id m dlc rx sv sy x = Ret (ERR_OK, y) -> k <> mo -> filt y k = filt x k) as Dn.
  { intros mo id m dlc rx sv sy x y k Hx Hk. apply define_obj_full in Hx. destruct Hx as (_ & _ & _ & Q & _). auto. }
  assert (WF E s1 /\ (ASY E = true -> filt s1 MO_ASYNC_DATA = Some (BASE_DATA_RX, N.lor MASK_CLASS mask) /\ (a < MAXM E)%nat /\ ctl_owned s s1 (ctl_mo s1 a) (can_ident BASE_CTRL_RX nr 0))) as [W1 A1].
  { destruct (ASY E) eqn:As; [|apply ret_inv in HA; destruct HA as [_ ->]; split; [exact W|discriminate]].
    apply andthen_inv in HA. destruct HA as (s0 & H0 & HA). mbind H0 as r sa Ha. unfold get_async_ctrl_obj in Ha. destruct (Nat.leb_spec (MAXM E) a) as [La|La]; [apply ret_inv in Ha; destruct Ha as [-> ->]; apply ret_inv in H0; destruct H0; discriminate|].
    mbind Ha as om sb Hb. destruct om as [mo|]; [|apply ret_inv in Ha; destruct Ha as [-> ->]; apply ret_inv in H0; destruct H0; discriminate].
    apply next_free_spec in Hb. destruct Hb as (-> & Hu & Hl). mbind Ha as u sc Hc. apply modify_inv in Hc. apply ret_inv in Ha. destruct Ha as [-> ->].
    assert (WF E sc) as Wc. { subst sc. revert W. apply wf_upd_cfg. intros (K1 & K2 & K3 & K4 & K5). unfold wf_cfg. cbn. rewrite set_nth_length. auto. }
    pose proof (Df _ _ _ _ _ _ _ _ _ Wc H0) as F0. pose proof (wf_define_obj E _ _ _ _ _ _ _ _ _ _ H0 Wc) as W0.
    apply define_obj_full in H0. destruct H0 as (Cf & _ & U & _ & _ & C & Ok). destruct (Ok eq_refl) as (Lm & Um & _).
    assert (mo <> MO_ASYNC_DATA /\ ~ In mo (reserved E)) as [Na Nr].
    { destruct I as (I1 & _). split; [intros ->|]; [|intro Q]; [assert (In MO_ASYNC_DATA (reserved E)) as Q by (unfold reserved; rewrite As; apply in_or_app; right; apply in_or_app; right; left; reflexivity)|]; apply I1 in Q; congruence. }
    pose proof (Df _ _ _ _ _ _ _ _ _ W0 HA) as Fa. pose proof (Dn _ _ _ _ _ _ _ _ _ mo HA Na) as Fn. pose proof (wf_define_obj E _ _ _ _ _ _ _ _ _ _ HA W0) as W1.
    apply define_obj_full in HA. destruct HA as (Cf1 & _ & U1 & _ & _ & C1 & _). split; [exact W1|]. intros _. split; [exact Fa|]. split; [exact La|].
    assert (ctl_mo s1 a = mo) as ->. { unfold ctl_mo. rewrite Cf1, Cf. subst sc. cbn. apply nth_set_nth_same. destruct W as ((_ & _ & _ & Q & _) & _). rewrite Q. exact La. }
    split; [exact Hu|]. split; [apply U1, Um, Wc|]. split; [rewrite C1, C, Nat.eqb_refl; cbn; rewrite orb_true_r; reflexivity|]. split; [rewrite Fn; exact F0|exact Nr]. }
  pose proof (Df _ _ _ _ _ _ _ _ _ W1 HB) as FB. pose proof (wf_define_obj E _ _ _ _ _ _ _ _ _ _ HB W1) as W2.
  assert (calm s1 s2) as C2 by (eapply calm_define_obj; [right|exact HB]; right; left; reflexivity).
  assert (n_cfg s2 = n_cfg s1) as K2 by (eapply define_obj_full, HB).
  assert (filt s2 MO_ASYNC_DATA = filt s1 MO_ASYNC_DATA) as F2 by (eapply Dn; [exact HB|discriminate]).
  assert (calm s2 s' /\ n_cfg s' = n_cfg s2 /\ filt s' MO_ASYNC_DATA = filt s2 MO_ASYNC_DATA /\ filt s' MO_SYS1 = filt s2 MO_SYS1 /\ (SYS2 E = true -> filt s' MO_SYS2 = Some (ID_SYS, N.lor MASK_CLASS mask))) as (C3 & K3 & F3 & F4 & F5).
  { destruct (SYS2 E) eqn:S2.
    - split; [eapply calm_define_obj; [right|exact HC]; unfold reserved; rewrite S2; apply in_or_app; right; left; reflexivity|]. split; [eapply define_obj_full, HC|]. split; [eapply Dn; [exact HC|discriminate]|].
      split; [eapply Dn; [exact HC|discriminate]|]. intros _. exact (Df _ _ _ _ _ _ _ _ _ W2 HC).
    - apply ret_inv in HC. destruct HC as [_ ->]. split; [apply pre_refl|]. repeat split; try reflexivity. discriminate. }
  split; [split; [rewrite F4; exact FB|split; [exact F5|intro As; rewrite F3, F2; apply A1, As]]|].
  intro As. destruct (A1 As) as (_ & La & O1 & O2 & O3 & O4 & O5). split; [exact La|]. assert (ctl_mo s' a = ctl_mo s1 a) as -> by (unfold ctl_mo; rewrite K3, K2; reflexivity).
  assert (calm s1 s') as (G1 & G2 & G3 & _) by (eapply pre_trans; eauto). split; [exact O1|]. split; [apply G2, O2|]. split; [apply G3, O3|]. split; [rewrite G1; auto|exact O5].
Qed.

Lemma same_tab_shared a c d : pres (fun x y => tab_of y = tab_of x) (shared_objs E a c d).
Proof.
  assert (Pre (fun x y => tab_of y = tab_of x)) as P by (split; [reflexivity|intros; congruence]).
  assert (forall mo id mask dlc rx sv sy, pres (fun x y => tab_of y = tab_of x) (define_obj E mo id mask dlc rx sv sy)) as D.
  { intros mo id mask dlc rx sv sy x e y H. unfold tab_of. apply define_obj_full in H. destruct H as (-> & _). reflexivity. }
  unfold shared_objs, get_async_ctrl_obj, next_free. repeat (simple apply D || pres_tac1); reflexivity.
Qed.
Lemma only_silent_mo p st : pres (only_at p) (set_silent_awake E p st).
Proof.
  unfold set_silent_awake, sync_off, sync_on, tx_data_on, tx_data_off.
  repeat ((simple apply pres_call_rx; [typeclasses eauto| intros; first [repeat split; reflexivity|apply only_at_upd]]) || pres_tac1);
    first [repeat split; reflexivity|apply only_at_upd].
Qed.
Record added_at (s s' : node) (pos : nat) (d : modl) (nr : N) : Prop := {
  aa_nmod : nmod s' = S (nmod s);
  aa_id : moid (modat s' pos) = (m_type d, nr, m_nrx d);
  aa_rx : forall j, (j < m_nrx d)%nat -> owned s s' pos (rx_mo s' pos j) (can_ident BASE_RX nr j);
  aa_shared : shared_filters s' (mask_of (map m_nr (firstn (S pos) (tab_of s'))));
  aa_ctl : ASY E = true -> (nmod s < MAXM E)%nat /\ ctl_owned s s' (ctl_mo s' (nmod s)) (can_ident BASE_CTRL_RX nr 0)
}.
Lemma set_module_mo pos d nr0 rxs txs s e s' : WF E s -> HwI E s -> (pos < MAXM E)%nat -> set_module E pos d nr0 rxs txs s = Ret (e, s') ->
  calm s s' /\ (forall p, p <> pos -> modat s' p = modat s p) /\ (forall n, (n < nmod s)%nat -> ctl_mo s' n = ctl_mo s n) /\ (nmod s <= nmod s')%nat /\
  (e = ERR_OK -> added_at s s' pos d (limit_nr pos nr0)).
Proof.
  intros W I Lp H. unfold set_module in H. mbind H as u0 s0 H0. apply guard_inv in H0. destruct H0 as [Hd ->].
  mbind H as u1 sa H1. apply modify_inv in H1. change (fun _ : modl => _) with (fun _ : modl => new_entry d (limit_nr pos nr0) rxs txs) in H1. set (nr := limit_nr pos nr0) in *.
  assert (calm s sa) as Ca by (subst sa; unfold calm, filt, used, is_ctl, is_sync_mo; cbn; repeat split; auto; exists []; rewrite app_nil_r; reflexivity).
  assert (aside pos (nmod s) sa sa) as _ by apply pre_refl.
  assert (HwI E sa) as Ia by (subst sa; exact I).
  assert (WF E sa) as Wa. { subst sa. revert W. apply wf_upd_mod. intros _ _. pose proof (desc_nonempty _ Hd) as (D1 & D2 & D3 & D4 & D5). unfold modok, new_entry. cbn. rewrite length_addrs_rx, length_addrs_tx. tauto. }
  assert (moid (modat sa pos) = (m_type d, nr, m_nrx d)) as Ma. { subst sa. rewrite modat_upd_mod, Nat.eqb_refl by (rewrite (tab_len E s W); exact Lp). reflexivity. }
  assert (forall p, p <> pos -> modat sa p = modat s p) as Oa. { intros p Np. subst sa. rewrite modat_upd_mod by (rewrite (tab_len E s W); exact Lp). apply Nat.eqb_neq in Np. rewrite Np. reflexivity. }
  assert (nmod sa = nmod s /\ forall n, ctl_mo sa n = ctl_mo s n) as [Na Ka] by (subst sa; split; reflexivity). clear H1.
  assert (forall x, aside pos (nmod s) sa x -> calm sa x -> calm s x /\ (forall p, p <> pos -> modat x p = modat s p) /\ (forall n, (n < nmod s)%nat -> ctl_mo x n = ctl_mo s n) /\ nmod x = nmod s) as Fin.
  { intros x (A1 & A2 & A3 & A4 & A5) Cx. split; [eapply pre_trans; eauto|]. split; [intros; rewrite A1, Oa; auto|]. split; [intros n Hn; rewrite A4, Ka; auto; lia|congruence]. }
  unfold andthen in H. mbind H as e1 sb Hb. pose proof (aside_tx pos (nmod s) _ _ _ _ _ _ Hb) as Ab. pose proof (wf_tx_loop E _ _ _ _ _ _ _ Hb Wa) as Wb.
  assert (still sa sb) as Sb by (eapply still_tx, Hb). assert (HwI E sb) as Ib. { destruct Sb as (_ & _ & _ & B1 & _ & _ & _ & B2). unfold HwI, used in *. rewrite B1, B2. exact Ia. }
  apply still_calm in Sb. clear Hb.
  destruct (e1 =? ERR_OK) eqn:E1; [|apply ret_inv in H; destruct H as [-> ->]; destruct (Fin _ Ab Sb) as (F1 & F2 & F3 & F4); split; [exact F1|split; [exact F2|split; [exact F3|split; [lia|intros ->; discriminate]]]]].
  mbind H as e2 sc Hc. assert (aside pos (nmod s) sb sc) as Ac by (revert Hc; apply pres_for_err; [typeclasses eauto|intro; apply aside_rx_slot]).
  assert (calm sb sc) as Cc by (revert Hc; apply pres_for_err; [typeclasses eauto|intro; apply rx_slot_calm]). 
  assert (WF E sc) as Wc. { revert Wb. change (WFR E sb sc). revert Hc. apply pres_for_err; [typeclasses eauto|intro; apply wf_rx_slot]. }
  assert (HwI E sc) as Ic. { revert Ib. change (HwR E sb sc). revert Hc. apply pres_for_err; [typeclasses eauto|intro; apply HwR_rx_slot]. }
  assert (aside pos (nmod s) sa sc) as Aac by (eapply pre_trans; eauto). assert (calm sa sc) as Cac by (eapply pre_trans; eauto).
  destruct (e2 =? ERR_OK) eqn:E2; [|apply ret_inv in H; destruct H as [-> ->]; destruct (Fin _ Aac Cac) as (F1 & F2 & F3 & F4); split; [exact F1|split; [exact F2|split; [exact F3|split; [lia|intros ->; discriminate]]]]].
  apply N.eqb_eq in E2. subst e2. apply rx_loop_ok in Hc; auto; [|apply desc_nonempty in Hd; apply Hd]. destruct Hc as [_ Oc].
  mbind H as tab s3 H3. apply gets_inv in H3. destruct H3 as [-> ->]. mbind H as n s3 H3. apply gets_inv in H3. destruct H3 as [-> ->].
  mbind H as e3 sf Hf. mbind H as u s4 H4. apply modify_inv in H4. apply ret_inv in H. destruct H as [-> ->].
  assert (nmod sc = nmod s) as Nc by apply (Fin _ Aac Cac). rewrite Nc in Hf. rewrite define_shared_eq in Hf. set (mask := mask_of _) in *.
  assert (exists sd, aside pos (nmod s) sc sd /\ calm sc sd /\ tab_of sd = tab_of sc /\ still sd sf /\ (forall p, p <> pos -> modat sf p = modat sd p) /\ 
     (e3 = ERR_OK -> shared_filters sd mask /\ (ASY E = true -> (nmod s < MAXM E)%nat /\ ctl_owned sc sd (ctl_mo sd (nmod s)) (can_ident BASE_CTRL_RX nr 0)))) as (sd & Ad & Cd & Td & Sd & Od & Hd2).
  { unfold andthen in Hf. mbind Hf as e4 sd Hd2. exists sd. split; [eapply aside_shared, Hd2|]. split; [eapply shared_calm, Hd2|]. split; [eapply same_tab_shared, Hd2|]. destruct (e4 =? ERR_OK) eqn:E4.
    - apply N.eqb_eq in E4. subst e4. mbind Hf as st s5 H5. apply gets_inv in H5. destruct H5 as [-> ->]. split; [eapply still_silent, Hf|]. split; [|intro; apply shared_ok; auto].
      eapply only_silent_mo, Hf.
    - apply ret_inv in Hf. destruct Hf as [-> ->]. split; [apply pre_refl|]. split; [reflexivity|]. intros ->. discriminate. }
  assert (aside pos (nmod s) sa sd) as Aad by (eapply pre_trans; eauto). assert (calm sa sd) as Cad by (eapply pre_trans; eauto).
  destruct (Fin _ Aad Cad) as (F1 & F2 & F3 & F4). pose proof (still_calm _ _ Sd) as Cf.
  assert (calm sf s4) as C4 by (subst s4; unfold calm, filt, used, is_ctl, is_sync_mo; cbn; repeat split; auto; exists []; rewrite app_nil_r; reflexivity).
  assert (calm s s4) as CC by (eapply pre_trans; [exact F1|]; eapply pre_trans; eauto).
  assert (forall p, modat s4 p = modat sf p) as M4 by (subst s4; reflexivity). assert (forall n, ctl_mo s4 n = ctl_mo sd n) as K4. { destruct Sd as (_ & Sd & _). unfold ctl_mo. rewrite <- Sd. subst s4. reflexivity. }
  assert (nmod s4 = S (nmod s)) as N4. { destruct Sd as (_ & _ & Sd & _). subst s4. unfold nmod in *. cbn. congruence. }
  split; [exact CC|]. split; [intros; rewrite M4, Od, F2; auto|]. split; [intros; rewrite K4; auto|]. split; [lia|].
  intros ->. destruct (Hd2 eq_refl) as [Sh Ct]. destruct Sd as (Sm & Sk & Sn & Su & Sf & Sc & Sr & St).
  assert (moinfo (modat s4 pos) = moinfo (modat sd pos)) as Mi by (rewrite M4; apply (same_f_at moinfo), Sm).
  assert (forall j, rx_mo s4 pos j = rx_mo sc pos j) as Rx.
  { intro j. unfold rx_mo. rewrite (moinfo_rx _ _ j Mi). unfold modat. rewrite Td. reflexivity. }
  constructor.
  - exact N4.
  - destruct Aad as (_ & Q & _). injection Mi as Q1 Q2 Q3 _. unfold moid in *. rewrite Q1, Q2, Q3, <- Ma. exact Q.
  - intros j Hj. rewrite Rx. specialize (Oc j Hj). eapply owned_calm in Oc; [|exact Cd]. eapply owned_calm in Oc; [|exact Cf]. eapply owned_calm in Oc; [|exact C4].
    destruct Oc as (O1 & O2). split; [|exact O2]. destruct (used s (rx_mo sc pos j)) eqn:Us; auto. assert (used sb (rx_mo sc pos j) = true); [|congruence].
    apply Sb, Ca, Us.
  - assert (mask_of (map m_nr (firstn (S pos) (tab_of s4))) = mask) as ->.
    { unfold mask. rewrite <- !firstn_map. do 2 f_equal. rewrite <- Td. assert (map moinfo (tab_of s4) = map moinfo (tab_of sd)) as Q by (subst s4; exact Sm).
      apply (f_equal (map (fun x => snd (fst (fst x))))) in Q. rewrite !map_map in Q. exact Q. }
    unfold shared_filters, filt in *. subst s4. cbn. rewrite Sf. exact Sh.
  - intro As. destruct (Ct As) as [Ln (C1 & C2 & C3 & C5 & C6)]. split; [exact Ln|]. rewrite K4. assert (calm sd s4) as (G1 & G2 & G3 & _) by (eapply pre_trans; eauto).
    repeat split; auto; [|rewrite G1; auto]. destruct (used s (ctl_mo sd (nmod s))) eqn:Us; auto. assert (used sc (ctl_mo sd (nmod s)) = true); [|congruence]. apply Cac, Ca, Us.
Qed.
End Mo.
