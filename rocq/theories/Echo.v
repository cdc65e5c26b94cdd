(** Receive filters never let frames of nodes pass (C107). *)
From Verif Require Import Words WordsFacts Bits ErrModel NodeModel NodeLib NodeInv NodeSpec NodeHw NodeCnt NodeSync NodeRx NodeSilent NodePres NodeSysP NodeTx NodeNum NodeTxP NodeNr NodeMo NodeCfg NodeBusSpec EchoSpec.

(** identifiers under which nodes with numbers up to 128 send *)
Definition out_id (id : N) : Prop := (id < 512 /\ id mod 4 = 3) \/ (1024 <= id /\ id < 1536).
Definition shut (x : option (N * N)) : Prop := forall id, out_id id -> match x with Some (f, m) => N.land (N.lxor id f) m <> 0 | None => True end.
Lemma same_bit id f m k : N.land (N.lxor id f) m = 0 -> N.testbit m k = true -> N.testbit id k = N.testbit f k.
Proof.
  intros H M. assert (N.testbit (N.land (N.lxor id f) m) k = false) as Q by (rewrite H; apply N.bits_0). rewrite N.land_spec, N.lxor_spec, M, andb_true_r in Q.
  destruct (N.testbit id k), (N.testbit f k); auto; discriminate.
Qed.
Lemma bits_of a : N.testbit a 0 = (a mod 2 =? 1) /\ N.testbit a 1 = ((a / 2) mod 2 =? 1) /\ N.testbit a 9 = ((a / 512) mod 2 =? 1) /\ N.testbit a 10 = ((a / 1024) mod 2 =? 1).
Proof. rewrite !N.testbit_eqb. change (2 ^ 0) with 1. change (2 ^ 1) with 2. change (2 ^ 9) with 512. change (2 ^ 10) with 1024. rewrite N.div_1_r. auto. Qed.
Lemma out_bits id : out_id id -> (N.testbit id 10 = true /\ N.testbit id 9 = false) \/ (N.testbit id 10 = false /\ N.testbit id 9 = false /\ N.testbit id 1 = true /\ N.testbit id 0 = true).
Proof.
  intros [[H1 H2]|[H1 H2]]; destruct (bits_of id) as (-> & -> & -> & ->).
  - right. repeat split; first [apply N.eqb_eq | apply N.eqb_neq]; lia.
  - left. split; first [apply N.eqb_eq | apply N.eqb_neq]; lia.
Qed.
Definition full (m : N) : Prop := N.testbit m 0 = true /\ N.testbit m 1 = true /\ N.testbit m 9 = true /\ N.testbit m 10 = true.
Lemma full_one : full MASK_ONE.
Proof. repeat split; reflexivity. Qed.
Lemma full_class x : full (N.lor MASK_CLASS x).
Proof. unfold full. rewrite !N.lor_spec. repeat split; reflexivity. Qed.
(** identifiers nodes listen to *)
Definition in_id (f : N) : Prop := f = 1 \/ f = 2 \/ (512 <= f /\ f < 1024) \/ (1536 <= f /\ f < 2048).
Lemma shut_in f m : in_id f -> full m -> shut (Some (f, m)).
Proof.
  intros F (M0 & M1 & M9 & M10) id O Q. pose proof (same_bit _ _ _ _ Q M0) as B0. pose proof (same_bit _ _ _ _ Q M1) as B1. pose proof (same_bit _ _ _ _ Q M9) as B9. pose proof (same_bit _ _ _ _ Q M10) as B10.
  apply out_bits in O. destruct (bits_of f) as (F0 & F1 & F9 & F10). rewrite F0 in B0. rewrite F1 in B1. rewrite F9 in B9. rewrite F10 in B10. clear F0 F1 F9 F10 Q M0 M1 M9 M10.
  destruct F as [->|[->|[F|F]]].
  - change (1 / 512 mod 2 =? 1) with false in *. change (1 / 1024 mod 2 =? 1) with false in *. change (1 / 2 mod 2 =? 1) with false in *. destruct O as [[O1 O2]|(O1 & O2 & O3 & O4)]; congruence.
  - change (2 / 1024 mod 2 =? 1) with false in *. change (2 mod 2 =? 1) with false in *. destruct O as [[O1 O2]|(O1 & O2 & O3 & O4)]; congruence.
  - assert (N.testbit id 9 = true) as X by (rewrite B9; apply N.eqb_eq; lia). destruct O as [[O1 O2]|(O1 & O2 & O3 & O4)]; congruence.
  - assert (N.testbit id 9 = true) as X by (rewrite B9; apply N.eqb_eq; lia). destruct O as [[O1 O2]|(O1 & O2 & O3 & O4)]; congruence.
Qed.
Lemma in_rx nr i : 1 <= nr <= 128 -> (i < 4)%nat -> in_id (can_ident BASE_RX nr i).
Proof. intros H L. right. right. left. unfold can_ident, u16, BASE_RX. lia. Qed.
Lemma in_ctrl nr : 1 <= nr <= 128 -> in_id (can_ident BASE_CTRL_RX nr 0).
Proof. intros H. right. right. right. unfold can_ident, u16, BASE_CTRL_RX. lia. Qed.
Lemma pres_for_lt (R : node -> node -> Prop) `{Pre R} n f : forall i, (forall j, (i <= j < i + n)%nat -> pres R (f j)) -> pres R (for_err n i f).
Proof.
  induction n as [|n IH]; intros i Hf; cbn [for_err]; [apply pres_ret; assumption|]. apply pres_bind; [assumption|apply Hf; lia|]. intro a. destruct (a =? ERR_OK); [apply IH; intros j L; apply Hf; lia|apply pres_ret; assumption].
Qed.

Lemma cmd_number x : cmd_of x = CNumber -> x = 32.
Proof. unfold cmd_of. repeat match goal with |- context [x =? ?k] => destruct (N.eqb_spec x k); [try discriminate; try (intros _; assumption)|] end; discriminate. Qed.
Section Echo.
Variable E : env.
Hypothesis HE : env_ok E.
Definition FI (s : node) : Prop := forall mo, shut (filt s mo).
Definition FR (s s' : node) : Prop := FI s -> FI s'.
#[local] Instance pre_FR : Pre FR := pre_imp FI.
Lemma FR_same s s' : h_filt (n_hw s') = h_filt (n_hw s) -> FR s s'.
Proof. unfold FR, FI, filt. intros ->. auto. Qed.
Lemma FR_still {A} (m : M A) : pres still m -> pres FR m.
Proof. apply pres_weaken. intros s s' H. apply FR_same, H. Qed.
Lemma FR_define mo id mask dlc rx sv sy : (rx = true -> in_id id /\ full mask) -> pres FR (define_obj E mo id mask dlc rx sv sy).
Proof.
  intro Hi. unfold define_obj, hw_define. pres_tac; try (apply FR_same; reflexivity).
  intros F k. unfold filt, upd_hw. cbn [h_filt n_hw set_n_hw set_h_filt]. destruct (Nat.eq_dec k mo) as [->|Nk]; [|rewrite nth_set_nth_other by congruence; apply F].
  destruct (Nat.lt_ge_cases mo (length (h_filt (n_hw s)))) as [L|L].
  - rewrite nth_set_nth_same by exact L. destruct rx; [|intros id0 _; exact I]. apply shut_in; apply Hi; reflexivity.
  - rewrite set_nth_beyond by exact L. apply F.
Qed.
Lemma FR_silent p st : pres FR (set_silent_awake E p st).
Proof. apply FR_still, still_silent. Qed.
Lemma FR_cnfg a b c : pres FR (tx_data_cnfg E a b c).
Proof. apply FR_still, still_cnfg. Qed.
Lemma FR_shared a b nr d : 1 <= nr <= 128 -> pres FR (define_shared E a b nr d).
Proof.
  intro Hn. unfold define_shared, get_async_ctrl_obj, next_free.
  repeat (simple apply FR_silent || (simple apply FR_define; intros _; split; [first [apply in_ctrl; exact Hn | right; left; reflexivity | right; right; right; unfold BASE_DATA_RX; lia] | first [apply full_one|apply full_class]]) || pres_tac1); try (apply FR_same; reflexivity).
Qed.
Lemma FR_rx_slot pos nr i : 1 <= nr <= 128 -> (i < 4)%nat -> pres FR (rx_slot E pos nr i).
Proof.
  intros Hn Li. unfold rx_slot, next_free, rx_data_cnfg. repeat ((simple apply FR_define; intros _; split; [apply in_rx; assumption|apply full_one]) || pres_tac1); apply FR_same; reflexivity.
Qed.
Lemma FR_rest pos d nr : 1 <= nr <= 128 -> (m_nrx d <= 4)%nat -> pres FR (set_module_rest E pos d nr).
Proof.
  intros Hn Ld. unfold set_module_rest. refine (pres_andthen _ _ _ _ _); [refine (pres_for_err _ _ _ _ _); intro j; repeat (simple apply FR_cnfg || pres_tac1); apply FR_same; reflexivity|].
  refine (pres_andthen _ _ _ _ _); [|repeat ((simple apply FR_shared; exact Hn) || pres_tac1)].
  apply pres_for_lt; [typeclasses eauto|]. intros j Lj. apply FR_rx_slot; [exact Hn|lia].
Qed.
Lemma FR_set_module pos d nr rxs txs : 1 <= limit_nr pos nr <= 128 -> pres FR (set_module E pos d nr rxs txs).
Proof.
  intros Hn s e s' H F. apply set_module_inv in H. destruct H as (Hd & s1 & H & Hs). assert ((m_nrx d <= 4)%nat) as Ld.
  { unfold desc_ok in Hd. repeat (apply andb_prop in Hd; destruct Hd as [Hd _]). apply Nat.leb_le in Hd. exact Hd. }
  apply (FR_rest _ _ _ Hn Ld) in H. assert (FI s1) as F1 by (apply H; exact F). destruct Hs as [->| ->]; exact F1.
Qed.
Lemma FR_report e : pres FR (report_if e).
Proof. apply pres_report_if; [typeclasses eauto|]. intros; apply FR_same; reflexivity. Qed.
Lemma FI_add d nr rxs txs s e s' : low E s (OpAdd d nr rxs txs) -> add_module E d nr rxs txs s = Ret (e, s') -> FR s s'.
Proof.
  intros Lo H. cbn [low] in Lo. unfold add_module in H. mbind H as tab s0 H0. apply gets_inv in H0. destruct H0 as [-> ->]. rewrite first_unused_next in H.
  destruct (next_pos s) as [i|] eqn:Np; [|apply ret_inv in H; destruct H as [_ ->]; intro; assumption]. specialize (Lo i eq_refl). pose proof (next_pos_spec _ _ Np) as (Li & _ & Bi).
  destruct (existsb (fun m => m_nr m =? nr) (firstn i (tab_of s))) eqn:Ex.
  - assert ((i < 4)%nat) as L4.
    { destruct Lo as [L|[_ L]]; [exact L|]. exfalso. apply existsb_exists in Ex. destruct Ex as (m & Hm & Q). apply N.eqb_eq in Q. destruct (In_nth _ _ modl0 Hm) as (p & Lp & Qp). rewrite firstn_length in Lp.
      assert (modat s p = m) as Qm by (unfold modat; rewrite <- Qp; rewrite <- (firstn_skipn i (tab_of s)) at 1; rewrite app_nth1 by (rewrite firstn_length; lia); reflexivity).
      apply (L p); [lia|apply Bi; lia|congruence]. }
    mbind H as e1 s1 H1. apply FR_set_module in H1; [|rewrite limit_def; unfold NR_DEF; lia]. mbind H as u s2 H2. apply FR_report in H2. apply ret_inv in H. destruct H as [_ ->]. unfold FR in *. auto.
  - assert (1 <= limit_nr i nr <= 128) as Ln.
    { unfold limit_nr, NR_MAX, NR_MIN, NR_DEF. destruct (N.ltb_spec 124 nr), (N.ltb_spec nr 2); cbn [orb]; destruct Lo as [L|[L _]]; lia. }
    mbind H as e1 s1 H1. apply FR_set_module in H1; [|exact Ln]. mbind H as u s2 H2. apply FR_report in H2. apply ret_inv in H. destruct H as [_ ->]. unfold FR in *. auto.
Qed.
(** the same with the well-formedness of the tables *)
Definition WFI (s : node) : Prop := WF E s /\ FI s.
Definition WR (s s' : node) : Prop := WFI s -> WFI s'.
#[local] Instance pre_WR : Pre WR := pre_imp WFI.
Lemma WR_of {A} (m : M A) : pres (WFR E) m -> pres FR m -> pres WR m.
Proof. intros W F s a s' H [I1 I2]. split; [eapply W; eauto|eapply F; eauto]. Qed.
Lemma WR_nr_ids t new a : 1 <= new <= 128 -> pres WR (change_nr_ids E t new a).
Proof.
  intros Hn s e s' H [W F]. split; [eapply wf_change_nr_ids; eauto|]. unfold change_nr_ids in H. mbind H as tab s0 H0. apply gets_inv in H0. destruct H0 as [-> ->].
  destruct (find_type_nr _ _ _ _) as [pos|]; [|discriminate H]. mbind H as u s1 H1. apply modify_inv in H1. mbind H as m s2 H2. apply gets_inv in H2. destruct H2 as [-> ->].
  assert ((m_nrx (modat s1 pos) <= 4)%nat) as L4.
  { assert (WF E s1) as W1 by (subst s1; apply wf_upd_mod; [intros ? ?; assumption|exact W]). apply (modat_ok E s1 pos) in W1. destruct W1 as (M & _). exact M. }
  assert (FI s1) as F1 by (subst s1; exact F). clear F W H1. remember (modat s1 pos) as m eqn:Qm. clear Qm.
  assert (pres FR (for_err (m_ntx m) 0 (fun i => tx_data_cnfg E pos i new) >>>
      for_err (m_nrx m) 0 (fun i => let o := rxat m i in define_obj E (r_mo o) (can_ident BASE_RX new i) MASK_ONE (r_dlc o) true SvRx true) >>>
      (tab' <- gets tab_of ;; n <- gets nmod ;; define_shared E pos pos new (mask_of (map m_nr (firstn n tab')))))) as P.
  { refine (pres_andthen _ _ _ _ _); [refine (pres_for_err _ _ _ _ _); intro j; apply FR_cnfg|]. refine (pres_andthen _ _ _ _ _); [|repeat ((simple apply FR_shared; exact Hn) || pres_tac1)].
    apply pres_for_lt; [typeclasses eauto|]. intros j Lj. cbv zeta. apply FR_define. intros _. split; [apply in_rx; [exact Hn|lia]|apply full_one]. }
  exact (P _ _ _ H F1).
Qed.
Lemma WR_silent p st : pres WR (set_silent_awake E p st).
Proof. apply WR_of; [apply wf_set_silent_awake|apply FR_silent]. Qed.
Lemma WR_nr p n : 1 <= n <= 128 -> pres WR (change_nr E p n).
Proof. intro Hn. unfold change_nr. repeat ((simple apply WR_nr_ids; exact Hn) || simple apply WR_silent || pres_tac1). Qed.
Lemma FR_type p t : pres FR (change_type E p t).
Proof. unfold change_type. repeat (simple apply FR_cnfg || pres_tac1); apply FR_same; reflexivity. Qed.
Lemma WR_leaf s s' : WFR E s s' -> h_filt (n_hw s') = h_filt (n_hw s) -> WR s s'.
Proof. intros W H [I1 I2]. split; [apply W, I1|apply (FR_same s s' H), I2]. Qed.
Lemma WR_step o s s' : low E s o -> step E o s = Ret (tt, s') -> WR s s'.
Proof.
  intros Lo H. assert ((exists d nr rxs txs, o = OpAdd d nr rxs txs) \/ (forall d nr rxs txs, o <> OpAdd d nr rxs txs)) as [(d & nr & rxs & txs & ->)|Na] by (destruct o; eauto 6; right; intros; discriminate).
  { intros [W F]. split; [eapply wf_step; eauto|]. cbn [step] in H. unfold ignore in H. mbind H as e s1 H1. apply ret_inv in H. destruct H as [_ ->].
    eapply FI_add; eauto. }
  refine ((_ : pres WR (step E o)) s tt s' H). clear H. apply (kernel_step E); try typeclasses eauto; try (intros; apply WR_leaf; [|reflexivity]; intro; assumption).
  { intros s0 k Hk. apply WR_leaf; [|reflexivity]. apply (wf_upd_sync E (fun _ => k) s0 Hk). }
  destruct o; cbn [kernel low] in *; auto; try (intro; apply WR_leaf; [|reflexivity]; intro; assumption).
  - intro Hs. specialize (Lo Hs). unfold sys_kernel. destruct (cmd_of (b data 0)) eqn:Qc; auto; try (intro; apply WR_of; [apply wf_sys_silent_awake|apply FR_still, still_sys_silent]).
    + split; [intro; apply WR_of; [apply wf_set_node_mode|apply FR_still, still_mode]|apply WR_of; [apply wf_set_baudrate|apply FR_still, still_baud]].
    + intro. apply WR_nr. apply Lo. apply cmd_number, Qc.
    + intro. apply WR_of; [apply wf_change_type|apply FR_type].
  - exfalso. eapply Na. reflexivity.
  - apply WR_of; unfold set_silent_awake_type_nr.
    + repeat (simple apply wf_set_silent_awake || pres_tac1).
    + repeat (simple apply FR_silent || pres_tac1).
  - apply WR_nr_ids. exact Lo.
  - apply WR_of; [apply wf_change_type_add|]. unfold change_type_add. pres_tac; apply FR_same; reflexivity.
  - apply WR_of; [apply wf_set_node_mode|apply FR_still, still_mode].
  - apply WR_of; [apply wf_set_baudrate|apply FR_still, still_baud].
  - apply WR_of; [apply wf_set_active_critical|apply FR_still, still_part].
Qed.
Lemma FI_booted s : booted E s -> FI s.
Proof.
  intros (mem & st & orc & rate & H). unfold can_init in H.
  apply andthen_inv in H. destruct H as (s1 & H1 & H). apply andthen_inv in H. destruct H as (s2 & H2 & H). apply andthen_inv in H. destruct H as (s3 & H3 & H).
  assert (FI s3) as F3.
  { unfold msg_objs_init in H3. mbind H3 as u s4 H4. apply modify_inv in H4. apply ret_inv in H3. destruct H3 as [_ ->]. subst s4. intro mo. unfold filt. cbn. intros id _.
    replace (nth mo (repeat None (NMSG E)) None) with (@None (N * N)); [exact I|]. symmetry. destruct (nth_in_or_default mo (repeat (@None (N * N)) (NMSG E)) None) as [Q|Q]; [apply repeat_spec in Q; exact Q|exact Q]. }
  refine (_ F3). clear F3 H1 H2 H3. revert H. assert (forall m, pres FR m -> forall (e:N) a s, m a = Ret (e, s) -> FI a -> FI s) as K by (intros m P e x y Hx; exact (P _ _ _ Hx)).
  apply K. unfold sys_init, sync_init.
  repeat ((simple apply FR_define; intro Hr; first [discriminate Hr | split; [first [left; reflexivity | right; left; reflexivity | right; right; right; unfold BASE_CTRL_RX; lia]|apply full_one]]) || pres_tac1); apply FR_same; reflexivity.
Qed.
Lemma FI_lowly ops s : lowly E ops s -> FI s.
Proof.
  intros (s0 & B & R). assert (WFI s0) as I0 by (split; [apply (WF_reached E [] s0); exists s0; split; [exact B|reflexivity]|apply FI_booted, B]). clear B. enough (WFI s) as X by apply X. revert s0 I0 R.
  induction ops as [|o ops IH]; intros s0 I0 R; cbn [run_with] in R; [subst; exact I0|]. destruct R as (Lo & s1 & H1 & R). eapply IH; [|exact R]. eapply WR_step; eauto.
Qed.
End Echo.
