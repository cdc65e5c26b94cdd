(** Frames of the master and the process images of a node (C109). *)
From Verif Require Import Words WordsFacts Bits ErrModel NodeModel NodeLib NodeInv NodeSpec NodeHw NodeCnt NodeSync NodeImage NodeRx NodeSilent NodePres NodeSysP NodeTx NodeNum NodeTxP NodeNr NodeMo NodeCfg NodeBusSpec EchoSpec Echo AimSpec Aim FeedSpec.

Section Feed.
Variable E : env.
Hypothesis HE : env_ok E.
(** a module listens with at most its configured objects *)
Definition LI (s : node) : Prop := forall p, (m_nrx_s (modat s p) <= m_nrx (modat s p))%nat.
Definition LR (s s' : node) : Prop := LI s -> LI s'.
#[local] Instance pre_LR : Pre LR := pre_imp LI.
Lemma LR_cfg s s' : tab_of s' = tab_of s -> LR s s'.
Proof. unfold LR, LI, modat. intros ->. auto. Qed.
Lemma LR_upd pos g s : (forall m, (m_nrx_s m <= m_nrx m)%nat -> (m_nrx_s (g m) <= m_nrx (g m))%nat) -> LR s (upd_mod pos g s).
Proof.
  intros Hg I p. destruct (Nat.lt_ge_cases pos (length (tab_of s))) as [L|L].
  - rewrite modat_upd_mod by exact L. destruct (p =? pos)%nat; [apply Hg, I|apply I].
  - unfold modat, tab_of, upd_mod. cbn. rewrite set_nth_beyond by exact L. apply I.
Qed.
Local Ltac lleaf := first [apply LR_cfg; reflexivity | apply LR_upd; intros ? ?; cbn; first [assumption | lia]].
Lemma LR_silent p st : pres LR (set_silent_awake E p st).
Proof.
  unfold set_silent_awake, sync_off, sync_on, tx_data_on, tx_data_off.
  repeat ((simple apply pres_call_rx; [typeclasses eauto| intros; lleaf]) || pres_tac1); lleaf.
Qed.
Lemma LR_mode m : pres LR (set_node_mode m).
Proof. unfold set_node_mode. pres_tac; lleaf. Qed.
Lemma LR_baud r : pres LR (set_baudrate r).
Proof.
  unfold set_baudrate. refine (pres_bind _ _ _ _ _); [pres_tac|intro tab]. generalize ERR_OK.
  induction tab as [|x tab IH]; intro e; cbn [set_baudrate_loop]; [pres_tac|].
  destruct (r =? x); [|apply IH]. unfold hw_set_baudrate. repeat (simple apply IH || pres_tac1); lleaf.
Qed.
Lemma LR_sys data nr st : pres LR (sys_silent_awake E data nr st).
Proof. unfold sys_silent_awake. repeat (simple apply LR_silent || pres_tac1); lleaf. Qed.
Lemma LR_add d nr rxs txs : pres LR (add_module E d nr rxs txs).
Proof.
  unfold add_module, set_module, rx_slot, define_shared, get_async_ctrl_obj, next_free, rx_data_cnfg, tx_data_cnfg, define_obj, hw_define.
  repeat (simple apply LR_silent || (simple apply pres_report_if; [typeclasses eauto|intros; lleaf]) || pres_tac1); lleaf.
Qed.
Lemma LR_step o : plain E o -> pres LR (step E o).
Proof.
  intro Po. apply (kernel_step E); try typeclasses eauto; try (intros; apply LR_cfg; reflexivity).
  destruct o; cbn [kernel plain] in *; auto; try (intro; apply LR_cfg; reflexivity).
  - intro Hs. apply Po in Hs. destruct Hs as (H1 & H2 & _). unfold sys_kernel. change (b data 0) with (byte_at data 0). unfold cmd_of.
    repeat match goal with |- context [if byte_at data 0 =? ?k then _ else _] => destruct (N.eqb_spec (byte_at data 0) k); [cbv iota|] end; try exact I; try congruence.
    + split; [intro; apply LR_mode|apply LR_baud].
    + intro. apply LR_sys.
    + intro. apply LR_sys.
  - apply LR_add.
  - unfold set_silent_awake_type_nr. repeat (simple apply LR_silent || pres_tac1).
  - destruct Po.
  - unfold change_type_add. pres_tac; lleaf.
  - apply LR_mode.
  - apply LR_baud.
  - destruct Po.
Qed.
Lemma LI_plainly ops s : plainly E ops s -> LI s.
Proof.
  intros [F (s0 & B & R)]. assert (LI s0) as I0.
  { destruct B as (mem & st & orc & rate & H). assert (LI (static_node E mem st orc)) as I1.
    { intro p. unfold modat, tab_of. cbn. destruct (Nat.lt_ge_cases p (MAXM E)) as [L|L]; [rewrite nth_map_seq by exact L; cbn; lia|rewrite nth_overflow by (rewrite map_length, seq_length; exact L); cbn; lia]. }
    revert H I1. enough (pres LR (can_init E rate)) as P by (intro H; exact (P _ _ _ H)).
    unfold can_init, config_init, msg_objs_init, sys_init, sync_init, define_obj, hw_define. pres_tac; try lleaf.
    intros I2 p. specialize (I2 p). unfold modat, tab_of in *. cbn. destruct (Nat.lt_ge_cases p (length (k_tab (n_cfg s1)))) as [L|L]; [|rewrite nth_overflow by (rewrite map_length; exact L); cbn; lia].
    erewrite nth_indep by (rewrite map_length; exact L). rewrite (map_nth (fun m => set_m_type m (set_nth (m_type m) 0 0)) _ modl0). exact I2. }
  clear B. revert s0 I0 R. induction ops as [|o ops IH]; intros s0 I0 R; cbn [run] in R; [apply ret_inv in R; destruct R as [_ ->]; exact I0|]. mbind R as u s1 H1. destruct u. inversion F as [|? ? Po Fo]. subst. refine (IH Fo s1 _ R). eapply LR_step; eauto.
Qed.
(** data frames and requests leave the configuration *)
Definition same_cfg (s s' : node) : Prop := n_cfg s' = n_cfg s.
#[local] Instance pre_same_cfg : Pre same_cfg.
Proof. unfold same_cfg. split; congruence. Qed.
Lemma frame_cfg mo id dlc data now : sys_mo E mo = false -> pres same_cfg (step E (OpFrame mo id dlc data now)).
Proof. intro Hs. apply (kernel_step E); try typeclasses eauto; try (intros; reflexivity). cbn [kernel]. unfold sys_mo in Hs. rewrite Hs. discriminate. Qed.
Lemma frame_plain mo id dlc data now : sys_mo E mo = false -> plain E (OpFrame mo id dlc data now).
Proof. intro Hs. cbn [plain]. rewrite Hs. discriminate. Qed.
(** what one frame does *)
Lemma one_meets ops s f s' : plainly E ops s -> all_complete E s -> proper f -> meets E s (data_rx_id (f_nr f) (f_obj f)) (f_dlc f) (f_data f) (f_now f) s' ->
  exists mid, run E mid s = Ret (tt, s') /\ plainly E (ops ++ mid) s' /\ all_complete E s' /\ n_cfg s' = n_cfg s /\ no_requests mid /\ (length mid <= 1)%nat /\
    (forall o, In o mid -> exists mo q, o = OpFrame mo (data_rx_id (f_nr f) (f_obj f)) (f_dlc f) (f_data f) (f_now f) /\ sys_mo E mo = false /\ addressed s q (f_nr f) (f_obj f) /\ rx_mo s q (f_obj f) = mo) /\
    forall p obj, in_use (modat s p) = true -> m_nr (modat s p) <= 128 -> (obj < m_nrx (modat s p))%nat ->
      receptions E s mid p obj = if (f_nr f =? m_nr (modat s p)) && (f_obj f =? obj)%nat && (negb (CHK E) || (f_dlc f =? r_dlc_s (rxat (modat s p) obj))) then 1%nat else 0%nat.
Proof.
  intros P C [Pn Po] [(mo & Pa & S)|[Np ->]].
  - destruct (rx_meets E HE _ _ _ _ _ P Pn Po Pa) as (q & (Lq & Uq & Nq & Oq) & Mq). destruct P as [F R]. pose proof (C q Uq) as Cq.
    destruct (no_sharing E HE _ _ _ _ R Cq Cq) as (_ & _ & Nf & _). specialize (Nf _ Oq). rewrite Mq in Nf. rewrite fixed_reserved in Nf.
    assert (sys_mo E mo = false) as Hs. { unfold sys_mo. destruct (Nat.eqb_spec mo MO_SYS1) as [->|]; [exfalso; apply Nf; unfold reserved; cbn; auto|]. destruct (SYS2 E) eqn:S2; [|reflexivity]. destruct (Nat.eqb_spec mo MO_SYS2) as [->|]; [|reflexivity]. exfalso. apply Nf. unfold reserved. rewrite S2. cbn. auto. }
    assert (mo <> MO_PROCESS) as Hp by (intros ->; apply Nf; unfold reserved; cbn; auto).
    pose proof (frame_plain mo (data_rx_id (f_nr f) (f_obj f)) (f_dlc f) (f_data f) (f_now f) Hs) as Pl. pose proof (frame_cfg _ _ _ _ _ Hs _ _ _ S) as Cf. unfold same_cfg in Cf.
    exists [OpFrame mo (data_rx_id (f_nr f) (f_obj f)) (f_dlc f) (f_data f) (f_now f)]. split; [cbn [run]; unfold bind; rewrite S; reflexivity|].
    split; [split; [apply Forall_app; split; [exact F|constructor; [exact Pl|constructor]]|eapply reached_step; eauto]|].
    split; [intros p U; eapply (complete_kept E HE); eauto; [|apply C]; unfold modat, tab_of in *; rewrite Cf in U; exact U|]. split; [exact Cf|].
    split; [unfold no_requests; cbn; apply Nat.eqb_neq in Hp; rewrite Hp; reflexivity|]. split; [cbn; lia|]. split; [intros o [<-|[]]; exists mo, q; unfold addressed; auto 10|].
    intros p obj Up N8 Lo. cbn [receptions]. rewrite S. rewrite Nat.add_0_r.
    pose proof (dispatched E _ s q (f_obj f) (r_dlc_s (rxat (modat s q) (f_obj f))) (f_data f) (f_now f) R Cq Oq ltac:(lia) ltac:(lia) eq_refl) as D. rewrite Nq, Mq in D. unfold accepted in D |- *.
    apply andb_prop in D. destruct D as [D _]. apply andb_prop in D. destruct D as [D _]. apply andb_prop in D. destruct D as [D1 D2]. rewrite D1. destruct (owner s mo) as [q'|]; [|discriminate]. apply Nat.eqb_eq in D2. subst q'.
    destruct (rx_nr_id (f_nr f) (f_obj f) ltac:(lia) ltac:(lia) Po) as [Q1 Q2]. rewrite Q1, Q2. cbn [andb]. destruct (Nat.eqb_spec q p) as [<-|Nqp].
    + rewrite Nq, N.eqb_refl. cbn [andb]. destruct (f_obj f =? obj)%nat, (CHK E), (f_dlc f =? r_dlc_s (rxat (modat s q) obj)); reflexivity.
    + assert (f_nr f =? m_nr (modat s p) = false) as ->; [|reflexivity]. apply N.eqb_neq. intro Q.
      pose proof (NrI_reached E _ _ F R) as I. pose proof (tab_len E s (WF_reached E _ _ R)) as Ln. rewrite Ln in Lq. assert ((p < MAXM E)%nat) as Lp.
      { destruct (Nat.lt_ge_cases p (MAXM E)) as [L|L]; [exact L|]. unfold modat in Lo. rewrite nth_overflow in Lo by lia. cbn in Lo. lia. }
      destruct (Nat.lt_trichotomy p q) as [L|[L|L]]; [apply (nr_diff _ _ I p q L Lq Up Uq); congruence|congruence|apply (nr_diff _ _ I q p L Lp Uq Up); congruence].
  - exists []. split; [reflexivity|]. rewrite app_nil_r. split; [exact P|]. split; [exact C|]. split; [reflexivity|]. split; [reflexivity|]. split; [cbn; lia|]. split; [intros o []|]. intros p obj Up N8 Lo. cbn [receptions].
    destruct (N.eqb_spec (f_nr f) (m_nr (modat s p))) as [Q|Q]; [|reflexivity]. destruct (Nat.eqb_spec (f_obj f) obj) as [Q2|Q2]; [|reflexivity]. exfalso. apply (Np (rx_mo s p obj)). destruct (C p Up) as (_ & C1 & _). destruct (C1 obj Lo) as (_ & _ & L). unfold passes, listens in *. rewrite L, Q, Q2. rewrite N.lxor_nilpotent. reflexivity.
Qed.
Lemma receptions_app mid1 mid2 p obj : forall s s1, run E mid1 s = Ret (tt, s1) -> receptions E s (mid1 ++ mid2) p obj = (receptions E s mid1 p obj + receptions E s1 mid2 p obj)%nat.
Proof.
  induction mid1 as [|o mid1 IH]; intros s s1 H; cbn [run] in H; [apply ret_inv in H; destruct H as [_ ->]; reflexivity|]. cbn [app receptions]. mbind H as u s2 H2. destruct u. rewrite H2. rewrite (IH _ _ H). lia.
Qed.
Lemma run_app_ok mid1 mid2 : forall s s1 s2, run E mid1 s = Ret (tt, s1) -> run E mid2 s1 = Ret (tt, s2) -> run E (mid1 ++ mid2) s = Ret (tt, s2).
Proof.
  induction mid1 as [|o mid1 IH]; intros s s1 s2 H1 H2; cbn [run app] in *; [apply ret_inv in H1; destruct H1 as [_ ->]; exact H2|]. unfold bind in *. destruct (step E o s) as [[[] s3]| |]; try discriminate. eapply IH; eauto.
Qed.
Lemma all_meets fs : forall ops s s', plainly E ops s -> all_complete E s -> Forall proper fs -> meets_all E fs s s' ->
  exists mid, run E mid s = Ret (tt, s') /\ plainly E (ops ++ mid) s' /\ n_cfg s' = n_cfg s /\ no_requests mid /\ (length mid <= length fs)%nat /\
    (forall o, In o mid -> exists f mo q, In f fs /\ o = OpFrame mo (data_rx_id (f_nr f) (f_obj f)) (f_dlc f) (f_data f) (f_now f) /\ sys_mo E mo = false /\ addressed s q (f_nr f) (f_obj f) /\ rx_mo s q (f_obj f) = mo) /\
    forall p obj, in_use (modat s p) = true -> m_nr (modat s p) <= 128 -> (obj < m_nrx (modat s p))%nat ->
      receptions E s mid p obj = times (CHK E) fs (m_nr (modat s p)) obj (r_dlc_s (rxat (modat s p) obj)).
Proof.
  induction fs as [|f fs IH]; intros ops s s' P C F M; cbn [meets_all] in M.
  - subst s'. exists []. rewrite app_nil_r. split; [reflexivity|]. split; [exact P|]. split; [reflexivity|]. split; [reflexivity|]. split; [cbn; lia|]. split; [intros o []|]. reflexivity.
  - destruct M as (s1 & M1 & M2). inversion F as [|? ? F1 F2]. subst. destruct (one_meets _ _ _ _ P C F1 M1) as (m1 & R1 & P1 & C1 & Q1 & N1 & L1 & O1 & K1).
    destruct (IH _ _ _ P1 C1 F2 M2) as (m2 & R2 & P2 & Q2 & N2 & L2 & O2 & K2). exists (m1 ++ m2). split; [eapply run_app_ok; eauto|]. split; [rewrite app_assoc; exact P2|]. split; [congruence|].
    split; [unfold no_requests in *; rewrite forallb_app, N1, N2; reflexivity|]. split; [rewrite app_length; cbn [length]; lia|]. split.
    { intros o Ho. apply in_app_or in Ho. destruct Ho as [Ho|Ho]; [destruct (O1 o Ho) as (mo & q & -> & ? & ?); exists f, mo, q; cbn [In]; auto|]. destruct (O2 o Ho) as (g & mo & q & H1 & H2 & H3 & H4 & H5). exists g, mo, q.
      unfold addressed, rx_mo, modat, tab_of in H4, H5 |- *. rewrite Q1 in H4, H5. cbn [In]. auto 10. }
    intros p obj Up N8 Lo. rewrite (receptions_app _ _ _ _ _ _ R1), (K1 p obj Up N8 Lo). assert (modat s1 p = modat s p) as Qm by (unfold modat, tab_of; rewrite Q1; reflexivity).
    specialize (K2 p obj). rewrite Qm in K2. rewrite (K2 Up N8 Lo). unfold times. cbn [filter]. destruct (_ && _ && _); reflexivity.
Qed.
End Feed.
