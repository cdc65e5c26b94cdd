(** Filters of the control messages belong to the modules that have the numbers, and there is one for each (C110). *)
From Verif Require Import Words WordsFacts Bits ErrModel NodeModel NodeLib NodeInv NodeSpec NodeHw NodeCnt NodeSync NodeRx NodeSilent NodePres NodeSysP NodeTx NodeNum NodeTxP NodeNr NodeMo NodeCfg NodeBusSpec EchoSpec Echo AimSpec Aim.

(** filters of other messages, and the one of number 1 from the start *)
Definition cid (nr : N) : N := can_ident BASE_CTRL_RX nr 0.
Definition otherc (f m : N) : Prop := full m /\ (N.testbit f 9 = false \/ N.testbit f 10 = false \/ N.testbit f 1 = true \/ (f = BASE_CTRL_RX /\ m = MASK_ONE)).
Lemma cid_val nr : 1 <= nr <= 140 -> cid nr = 1536 + 4 * (nr - 1).
Proof. intro H. unfold cid, can_ident, u16, BASE_CTRL_RX. lia. Qed.
Lemma otherc_rx nr i : 1 <= nr <= 140 -> (i < 4)%nat -> otherc (can_ident BASE_RX nr i) MASK_ONE.
Proof.
  intros H Hi. split; [apply full_one|]. destruct (bits_of (can_ident BASE_RX nr i)) as (_ & _ & -> & ->). unfold can_ident, u16, BASE_RX.
  destruct (N.le_gt_cases nr 128); [right; left; apply N.eqb_neq; lia|left; apply N.eqb_neq; lia].
Qed.
Lemma otherc_sys m : full m -> otherc ID_SYS m.
Proof. intro H. split; [exact H|]. left. reflexivity. Qed.
Lemma otherc_process m : full m -> otherc ID_PROCESS m.
Proof. intro H. split; [exact H|]. left. reflexivity. Qed.
Lemma otherc_data m : full m -> otherc BASE_DATA_RX m.
Proof. intro H. split; [exact H|]. right. right. left. reflexivity. Qed.
Lemma otherc_base m : m = MASK_ONE -> otherc BASE_CTRL_RX m.
Proof. intros ->. split; [apply full_one|]. right. right. right. auto. Qed.
Lemma otherc_refuses f m nr : otherc f m -> 2 <= nr <= 128 -> N.land (N.lxor (ctl_rx_id nr) f) m <> 0.
Proof.
  intros ((_ & M1 & M9 & M10) & F) Hn Q. pose proof (same_bit _ _ _ _ Q M1) as B1. pose proof (same_bit _ _ _ _ Q M9) as B9. pose proof (same_bit _ _ _ _ Q M10) as B10.
  destruct (bits_of (ctl_rx_id nr)) as (_ & I1 & I9 & I10). unfold ctl_rx_id in *.
  assert (N.testbit (1536 + 4 * (nr - 1)) 9 = true) as X by (rewrite I9; apply N.eqb_eq; lia). assert (N.testbit (1536 + 4 * (nr - 1)) 10 = true) as Y by (rewrite I10; apply N.eqb_eq; lia).
  assert (N.testbit (1536 + 4 * (nr - 1)) 1 = false) as Z by (rewrite I1; apply N.eqb_neq; lia).
  destruct F as [F|[F|[F|[-> ->]]]]; try congruence. apply one_same in Q; [unfold BASE_CTRL_RX in Q; lia|lia|unfold BASE_CTRL_RX; lia].
Qed.
Lemma otherc_not nr : 2 <= nr <= 128 -> ~ otherc (cid nr) MASK_ONE.
Proof. intros H O. apply (otherc_refuses _ _ nr O H). rewrite cid_val by lia. unfold ctl_rx_id. rewrite N.lxor_nilpotent. reflexivity. Qed.
Definition uniq (s : node) : Prop := forall nr mo mo', 2 <= nr <= 128 -> filt s mo = Some (cid nr, MASK_ONE) -> filt s mo' = Some (cid nr, MASK_ONE) -> mo = mo'.

Section CtlAim.
Variable E : env.
Hypothesis HE : env_ok E.
Definition CI (s : node) : Prop := uniq s /\ forall mo f m, filt s mo = Some (f, m) ->
  otherc f m \/ (m = MASK_ONE /\ exists p, (p < MAXM E)%nat /\ in_use (modat s p) = true /\ f = cid (m_nr (modat s p))).
Definition like (s s' : node) : Prop := forall p, m_type (modat s' p) = m_type (modat s p) /\ m_nr (modat s' p) = m_nr (modat s p).
Lemma uniq_filt s s' : h_filt (n_hw s') = h_filt (n_hw s) -> uniq s -> uniq s'.
Proof. intros F U. unfold uniq, filt in *. rewrite F. exact U. Qed.
Lemma still_like s s' : still s s' -> like s s'.
Proof. intros (S & _) p. pose proof (same_f_at moinfo _ _ p S) as M. injection M as M1 M2 _ _. auto. Qed.
Lemma CI_still s s' : still s s' -> CI s -> CI s'.
Proof.
  intros St [U I]. pose proof (still_like _ _ St) as L. destruct St as (_ & _ & _ & _ & F & _). split; [eapply uniq_filt; eauto|]. intros mo f m H. unfold filt in H. rewrite F in H.
  destruct (I mo f m H) as [O|(Q & p & Lp & Up & Qf)]; [left; exact O|right]. split; [exact Q|]. exists p. destruct (L p) as [L1 L2]. unfold in_use in *. rewrite L1, L2. auto.
Qed.
(** while a module is added at position [pos]; [b]: its control object may be defined *)
Section Add.
Variables (pos : nat) (nr : N).
Hypothesis Hnr : 2 <= nr <= 140.
Definition K (b : bool) (s : node) : Prop := uniq s /\ m_nr (modat s pos) = nr /\ (forall p, p <> pos -> (p < MAXM E)%nat -> in_use (modat s p) = true -> 2 <= m_nr (modat s p) <= 140 /\ m_nr (modat s p) <> nr) /\
  forall mo f m, filt s mo = Some (f, m) -> otherc f m \/ (m = MASK_ONE /\ exists p, ((p <> pos /\ (p < MAXM E)%nat /\ in_use (modat s p) = true) \/ (p = pos /\ b = true)) /\ f = cid (m_nr (modat s p))).
Definition KR (b : bool) (s s' : node) : Prop := K b s -> K b s'.
#[local] Instance pre_KR b : Pre (KR b) := pre_imp (K b).
Lemma K_like b s s' : like s s' -> h_filt (n_hw s') = h_filt (n_hw s) -> KR b s s'.
Proof.
  intros L F (U & N & D & I). split; [eapply uniq_filt; eauto|]. split; [rewrite (proj2 (L pos)); exact N|]. split.
  - intros p. destruct (L p) as [L1 L2]. unfold in_use in *. rewrite L1, L2. apply D.
  - intros mo f m H. unfold filt in H. rewrite F in H. destruct (I mo f m H) as [O|(Q & p & Dp & Qf)]; [left; exact O|right]. split; [exact Q|]. exists p. destruct (L p) as [L1 L2]. unfold in_use in *. rewrite L1, L2. auto.
Qed.
Lemma like_refl s : like s s.
Proof. intro p. auto. Qed.
Lemma like_cfg s s' : n_cfg s' = n_cfg s -> like s s'.
Proof. intros C p. unfold modat, tab_of. rewrite C. auto. Qed.
Lemma like_tab s s' : tab_of s' = tab_of s -> like s s'.
Proof. intros C p. unfold modat. rewrite C. auto. Qed.
Lemma like_upd g p s : (forall m, m_type (g m) = m_type m /\ m_nr (g m) = m_nr m) -> like s (upd_mod p g s).
Proof.
  intro G. assert (same_f (fun m => (m_type m, m_nr m)) s (upd_mod p g s)) as S by (apply same_f_upd; intro m; destruct (G m) as [-> ->]; reflexivity).
  intro q. pose proof (same_f_at _ _ _ q S) as Q. cbn beta in Q. injection Q as Q1 Q2. auto.
Qed.
Lemma KR_still b {A} (m : M A) : pres still m -> pres (KR b) m.
Proof. apply pres_weaken. intros s s' St. apply K_like; [apply still_like, St|]. destruct St as (_ & _ & _ & _ & F & _). exact F. Qed.
Lemma KR_define b mo id mask dlc rx sv sy : (rx = true -> otherc id mask) -> pres (KR b) (define_obj E mo id mask dlc rx sv sy).
Proof.
  intros Ho s e s' H. assert (like s s') as L by (apply like_cfg; eapply define_cfg; [exact HE|exact H]). apply FD_define in H. intros (U & N & D & I).
  assert (forall k f m, filt s' k = Some (f, m) -> filt s k = Some (f, m) \/ otherc f m) as G.
  { intros k f m Hf. destruct (H k) as [Q|[-> Q]]; rewrite Q in Hf; [auto|]. destruct rx; [|discriminate]. injection Hf as <- <-. auto. }
  split; [|split; [rewrite (proj2 (L pos)); exact N|split]].
  - intros n k k' Hn H1 H2. destruct (G _ _ _ H1) as [G1|G1]; [|exfalso; eapply otherc_not; eauto]. destruct (G _ _ _ H2) as [G2|G2]; [|exfalso; eapply otherc_not; eauto]. eapply U; eauto.
  - intros p. destruct (L p) as [L1 L2]. unfold in_use in *. rewrite L1, L2. apply D.
  - intros k f m Hf. destruct (G _ _ _ Hf) as [G1|G1]; [|left; exact G1]. destruct (I k f m G1) as [O|(Q & p & Dp & Qf)]; [left; exact O|right]. split; [exact Q|]. exists p. destruct (L p) as [L1 L2]. unfold in_use in *. rewrite L1, L2. auto.
Qed.
Lemma K_more s : K false s -> K true s.
Proof.
  intros (U & N & D & I). split; [exact U|]. split; [exact N|]. split; [exact D|]. intros mo f m H. destruct (I mo f m H) as [O|(Q & p & Dp & Qf)]; [left; exact O|right]. split; [exact Q|]. exists p. split; [|exact Qf]. destruct Dp as [Dp|[_ Dp]]; [auto|discriminate].
Qed.
Lemma K_ctrl mo dlc sv sy s e s' : K false s -> define_obj E mo (can_ident BASE_CTRL_RX nr 0) MASK_ONE dlc true sv sy s = Ret (e, s') -> K true s'.
Proof.
  intros (U & N & D & I) H. assert (like s s') as L by (apply like_cfg; eapply define_cfg; [exact HE|exact H]). apply FD_define in H. fold (cid nr) in H.
  assert (forall k f m, filt s' k = Some (f, m) -> filt s k = Some (f, m) \/ (k = mo /\ f = cid nr /\ m = MASK_ONE)) as G.
  { intros k f m Hf. destruct (H k) as [Q|[-> Q]]; rewrite Q in Hf; [auto|]. injection Hf as <- <-. auto. }
  assert (forall k n, 2 <= n <= 128 -> filt s k = Some (cid n, MASK_ONE) -> n <> nr) as Fr.
  { intros k n Hn Hf ->. destruct (I _ _ _ Hf) as [O|(_ & p & [(P1 & P2 & P3)|[_ P]] & Q)]; [eapply otherc_not; eauto| |discriminate]. destruct (D p P1 P2 P3) as [D1 D2]. rewrite !cid_val in Q by lia. lia. }
  split; [|split; [rewrite (proj2 (L pos)); exact N|split]].
  - intros n k k' Hn H1 H2. destruct (G _ _ _ H1) as [G1|(-> & G1 & _)]; destruct (G _ _ _ H2) as [G2|(-> & G2 & _)]; [eapply U; eauto| | |reflexivity]; exfalso; rewrite !cid_val in * by lia.
    + apply (Fr k n Hn); [rewrite cid_val by lia; exact G1|lia].
    + apply (Fr k' n Hn); [rewrite cid_val by lia; exact G2|lia].
  - intros p. destruct (L p) as [L1 L2]. unfold in_use in *. rewrite L1, L2. apply D.
  - intros k f m Hf. destruct (G _ _ _ Hf) as [G1|(-> & -> & ->)].
    + destruct (I k f m G1) as [O|(Q & p & Dp & Qf)]; [left; exact O|right]. split; [exact Q|]. exists p. destruct (L p) as [L1 L2]. unfold in_use in *. rewrite L1, L2. split; [|exact Qf]. destruct Dp as [Dp|[_ Dp]]; [auto|discriminate].
    + right. split; [reflexivity|]. exists pos. split; [auto|]. rewrite (proj2 (L pos)), N. reflexivity.
Qed.
Lemma K_shared a q d s e s' : K false s -> define_shared E a q nr d s = Ret (e, s') -> K true s'.
Proof.
  intros I H. unfold define_shared in H. apply andthen_cases in H. destruct H as (e1 & s1 & H1 & H). assert (K true s1) as I1.
  { clear H. destruct (ASY E); [|apply ret_inv in H1; destruct H1 as [_ ->]; apply K_more, I]. apply andthen_cases in H1. destruct H1 as (e2 & s2 & H2 & H1). assert (K true s2) as I2.
    { clear H1. mbind H2 as r s3 H3. assert (K false s3) as I3.
      { revert I. enough (pres (KR false) (get_async_ctrl_obj E a)) as P by exact (P _ _ _ H3). unfold get_async_ctrl_obj, next_free. pres_tac; apply K_like; try reflexivity; first [apply like_refl | apply like_tab; reflexivity]. }
      destruct r as [[mo|] e3]; [eapply K_ctrl; eauto|]. apply ret_inv in H2. destruct H2 as [_ ->]. apply K_more, I3. }
    destruct H1 as [[_ ->]|H1]; [exact I2|]. revert I2. refine (KR_define true _ _ _ _ _ _ _ _ _ _ _ H1). intros _. apply otherc_data, full_class. }
  destruct H as [[_ ->]|H]; [exact I1|]. revert I1. match type of H with ?m s1 = _ => enough (pres (KR true) m) as P by exact (P _ _ _ H) end.
  repeat ((simple apply KR_still; apply still_silent) || (simple apply KR_define; intros _; apply otherc_sys, full_class) || pres_tac1).
Qed.
Lemma KR_slot i : (i < 4)%nat -> pres (KR false) (rx_slot E pos nr i).
Proof.
  intro Hi. unfold rx_slot, next_free, rx_data_cnfg.
  repeat ((simple apply KR_define; intros _; apply otherc_rx; [lia|exact Hi]) || pres_tac1); (apply K_like; [first [apply like_upd; intro; split; reflexivity | apply like_cfg; reflexivity]|reflexivity]).
Qed.
Lemma K_slots n : forall i s e s', (i + n <= 4)%nat -> K false s -> for_err n i (rx_slot E pos nr) s = Ret (e, s') -> K false s'.
Proof.
  induction n as [|n IH]; intros i s e s' L I H; cbn [for_err] in H; [apply ret_inv in H; destruct H as [_ ->]; exact I|].
  mbind H as e1 s1 H1. assert (K false s1) as I1 by (refine (KR_slot i _ _ _ _ H1 I); lia). destruct (e1 =? ERR_OK); [eapply (IH (S i)); eauto; lia|]. apply ret_inv in H. destruct H as [_ ->]. exact I1.
Qed.
Lemma K_rest d s e s' : (m_nrx d <= NOBJ)%nat -> K false s -> set_module_rest E pos d nr s = Ret (e, s') -> K true s'.
Proof.
  intros Ld I H. unfold NOBJ in Ld. unfold set_module_rest in H. apply andthen_cases in H. destruct H as (e1 & s1 & H1 & H).
  assert (K false s1) as I1 by (refine (KR_still false _ (still_tx E pos nr _ _) _ _ _ H1 I)). destruct H as [[_ ->]|H]; [apply K_more, I1|].
  apply andthen_cases in H. destruct H as (e2 & s2 & H2 & H). assert (K false s2) as I2 by (refine (K_slots _ 0 _ _ _ _ I1 H2); lia). destruct H as [[_ ->]|H]; [apply K_more, I2|].
  mbind H as tab s3 H3. apply gets_inv in H3. destruct H3 as [_ ->]. mbind H as n s3 H3. apply gets_inv in H3. destruct H3 as [_ ->]. exact (K_shared _ _ _ _ _ _ I2 H).
Qed.
End Add.
Lemma CI_add d nr rxs txs s e s' : WF E s -> NrI E s -> NrI E s' -> CI s -> add_module E d nr rxs txs s = Ret (e, s') -> CI s'.
Proof.
  intros W N0 N1 I H. pose proof H as H0. apply add_module_inv in H0. unfold add_module in H. mbind H as tab s0 Hg. apply gets_inv in Hg. destruct Hg as [-> ->].
  destruct (first_unused (tab_of s) 0) as [i|] eqn:Fu; [|apply ret_inv in H; destruct H as [_ ->]; exact I]. destruct H0 as (Hd & _ & B & O & _).
  rewrite first_unused_next in Fu. pose proof (next_pos_spec _ _ Fu) as (Li & Ui & _). rewrite (tab_len E s W) in Li.
  assert ((MAXM E <= 8)%nat) as L8 by (destruct HE as ((_ & ?) & _); lia).
  assert (in_use (modat s' i) = true) as U1 by (change (in_use (base (modat s' i)) = true); rewrite B; unfold in_use; cbn; unfold desc_ok in Hd; apply andb_prop in Hd; tauto).
  assert (m_nr (modat s' i) = final_nr s i nr) as Nn by (change (m_nr (base (modat s' i)) = final_nr s i nr); rewrite B; reflexivity).
  set (n0 := final_nr s i nr) in *.
  assert (2 <= n0 <= 140) as Hn by (rewrite <- Nn; pose proof (nr_cls E _ N1 i Li U1) as C; unfold NR_DEF in C; lia).
  assert (forall p, p <> i -> (p < MAXM E)%nat -> in_use (modat s p) = true -> 2 <= m_nr (modat s p) <= 140 /\ m_nr (modat s p) <> n0) as Df.
  { intros p Np Lp Up. split; [pose proof (nr_cls E _ N0 p Lp Up) as C; unfold NR_DEF in C; lia|]. rewrite <- Nn, <- (O p Np). rewrite <- (O p Np) in Up.
    destruct (Nat.lt_trichotomy p i) as [L|[L|L]]; [apply (nr_diff E _ N1 p i L Li Up U1)|contradiction|]. intro Q. apply (nr_diff E _ N1 i p L Lp U1 Up). congruence. }
  assert (forall n1 e1 s1, limit_nr i n1 = n0 -> set_module E i d n1 rxs txs s = Ret (e1, s1) -> K i n0 true s1) as Kx.
  { clear H B O Nn N1 U1. intros n1 e1 s1 Hl H. apply set_module_inv in H. destruct H as (_ & s2 & H & Hs). rewrite Hl in H. assert (K i n0 true s2) as X.
    { refine (K_rest i n0 Hn d _ _ _ _ _ H).
      - pose proof (desc_nonempty _ Hd). tauto.
      - destruct I as [Iu I]. split; [exact Iu|]. split; [rewrite modat_upd_mod, Nat.eqb_refl by (rewrite (tab_len E s W); exact Li); reflexivity|].
        assert (forall g p, p <> i -> modat (upd_mod i g s) p = modat s p) as Q by (intros g p Np; rewrite modat_upd_mod by (rewrite (tab_len E s W); exact Li); apply Nat.eqb_neq in Np; rewrite Np; reflexivity).
        split; [intros p Np; rewrite Q by exact Np; apply Df, Np|].
        intros mo f m Hf. destruct (I mo f m Hf) as [Qo|(Qm & p & Lp & U & A)]; [left; exact Qo|right]. split; [exact Qm|]. exists p.
        assert (p <> i) as Np by (intros ->; congruence). rewrite Q by exact Np. split; [left; auto|exact A]. }
    destruct Hs as [->| ->]; exact X. }
  assert (forall n1 c, limit_nr i n1 = n0 -> (e1 <- set_module E i d n1 rxs txs ;; report_if e1 ;;; ret c) s = Ret (e, s') -> CI s') as Fin.
  { intros n1 c Hl Hx. mbind Hx as e1 s1 H1. apply Kx in H1; [|exact Hl]. mbind Hx as u s2 H2. apply ret_inv in Hx. destruct Hx as [_ ->].
    assert (n_cfg s2 = n_cfg s1 /\ n_hw s2 = n_hw s1) as [C1 C2].
    { revert H2. match goal with |- ?m s1 = _ -> _ => enough (pres (fun a c : node => n_cfg c = n_cfg a /\ n_hw c = n_hw a) m) as P by exact (P _ _ _) end. apply pres_report_if; [split; [auto|intros ? ? ? [] []; split; congruence]|]. intros; split; reflexivity. }
    assert (K i n0 true s2) as J2 by (revert H1; apply K_like; [apply like_cfg, C1|rewrite C2; reflexivity]). destruct J2 as (Ju & _ & _ & J2).
    split; [exact Ju|]. intros mo f m Hf. destruct (J2 mo f m Hf) as [Q|(Q & p & D & A)]; [left; exact Q|right]. split; [exact Q|]. exists p. destruct D as [(_ & D1 & D2)|[-> _]]; auto. }
  assert (n0 = limit_nr i (if existsb (fun m => m_nr m =? nr) (firstn i (tab_of s)) then NR_DEF + N.of_nat i else nr)) as Q0.
  { unfold n0, final_nr. destruct (existsb _ _); [rewrite limit_def; reflexivity|reflexivity]. }
  destruct (existsb _ _); (eapply Fin; [symmetry; exact Q0|exact H]).
Qed.
Lemma CI_booted s : booted E s -> CI s.
Proof.
  intros (mem & st & orc & rate & H). unfold can_init in H.
  apply andthen_inv in H. destruct H as (s1 & H1 & H). apply andthen_inv in H. destruct H as (s2 & H2 & H). apply andthen_inv in H. destruct H as (s3 & H3 & H).
  assert (forall mo, filt s3 mo = None) as F3.
  { unfold msg_objs_init in H3. mbind H3 as u s4 H4. apply modify_inv in H4. apply ret_inv in H3. destruct H3 as [_ ->]. subst s4. intro mo. unfold filt. cbn.
    destruct (nth_in_or_default mo (repeat (@None (N * N)) (NMSG E)) None) as [Q|Q]; [apply repeat_spec in Q; exact Q|exact Q]. }
  clear H1 H2 H3. set (OI := fun s : node => forall mo f m, filt s mo = Some (f, m) -> otherc f m).
  assert (Pre (fun a c => OI a -> OI c)) as PO by (apply pre_imp).
  assert (OI s3) as I3 by (intros mo f m Q; rewrite F3 in Q; discriminate).
  enough (OI s) as X by (split; [intros nr mo mo' Hn Q _; exfalso; apply X in Q; eapply otherc_not; eauto|intros mo f m Q; left; eapply X; eauto]). revert H I3.
  match goal with |- ?m s3 = _ -> _ => enough (pres (fun a c => OI a -> OI c) m) as P by (intro H; exact (P _ _ _ H)) end.
  assert (forall mo id mask dlc rx sv sy, (rx = true -> otherc id mask) -> pres (fun a c => OI a -> OI c) (define_obj E mo id mask dlc rx sv sy)) as D.
  { intros mo id mask dlc rx sv sy Ho a e c H I k f m Hf. apply FD_define in H. destruct (H k) as [Q|[-> Q]]; rewrite Q in Hf; [eapply I; eauto|]. destruct rx; [|discriminate]. injection Hf as <- <-. auto. }
  unfold sys_init, sync_init.
  repeat ((simple apply D; intro Hr; first [discriminate Hr | apply otherc_process, full_one | apply otherc_sys, full_one | apply otherc_base; reflexivity]) || pres_tac1); intro X; exact X.
Qed.
Lemma CI_reached ops s : plainly E ops s -> CI s.
Proof.
  revert s. induction ops as [|o ops IH] using rev_ind; intros s [F (s0 & B & R)].
  - cbn [run] in R. apply ret_inv in R. destruct R as [_ ->]. apply CI_booted, B.
  - apply Forall_app in F. destruct F as [F Fo]. inversion Fo as [|? ? Po _]. subst. pose proof R as R0. apply run_app in R. destruct R as (s1 & R1 & R2). cbn [run] in R2. mbind R2 as u s2 H1. destruct u. apply ret_inv in R2. destruct R2 as [_ ->].
    assert (reached E ops s1) as Re by (exists s0; auto). pose proof (IH s1 (conj F Re)) as I. pose proof (NrI_reached E _ _ F Re) as N0.
    assert (reached E (ops ++ [o]) s2) as Re2 by (exists s0; split; [exact B|exact R0]).
    assert (NrI E s2) as N1 by (apply (NrI_reached E (ops ++ [o]) s2); [apply Forall_app; split; [exact F|exact Fo]|exact Re2]).
    assert ((exists d nr rxs txs, o = OpAdd d nr rxs txs) \/ (forall d nr rxs txs, o <> OpAdd d nr rxs txs)) as [(d & nr & rxs & txs & ->)|Na] by (destruct o; eauto 6; right; intros; discriminate).
    + cbn [step] in H1. unfold ignore in H1. mbind H1 as e s3 H2. apply ret_inv in H1. destruct H1 as [_ ->]. exact (CI_add _ _ _ _ s1 _ _ (WF_reached E ops s1 Re) N0 N1 I H2).
    + eapply CI_still; [|exact I]. eapply (plain_still E); eauto.
Qed.
(** what a control message meets *)
Lemma ctl_filter ops s mo nr : plainly E ops s -> 2 <= nr <= 128 -> passes s mo (ctl_rx_id nr) ->
  filt s mo = Some (cid nr, MASK_ONE) /\ exists p, (p < length (tab_of s))%nat /\ in_use (modat s p) = true /\ m_nr (modat s p) = nr.
Proof.
  intros P Hn Q. pose proof (CI_reached _ _ P) as [_ I]. destruct P as [F R]. pose proof (NrI_reached E _ _ F R) as N. assert (WF E s) as W by (apply (WF_reached E ops); exact R). unfold passes in Q. specialize (I mo). unfold filt in *.
  destruct (nth mo (h_filt (n_hw s)) None) as [[f m]|]; [|destruct Q]. destruct (I f m eq_refl) as [O|(-> & p & Lp & U & A)]; [exfalso; eapply otherc_refuses; eauto|].
  pose proof (nr_cls E _ N p Lp U) as Cl. assert ((MAXM E <= 8)%nat) as L8 by (destruct HE as ((_ & ?) & _); lia). assert (2 <= m_nr (modat s p) <= 140) as Hp by (unfold NR_DEF in Cl; lia).
  rewrite cid_val in A by lia. destruct (N.le_gt_cases (m_nr (modat s p)) 128) as [Le|Gt].
  - assert (f = ctl_rx_id nr) as Qf by (apply one_same; [unfold ctl_rx_id; lia|lia|exact Q]). unfold ctl_rx_id in Qf. rewrite cid_val by lia. split; [congruence|]. exists p. rewrite (tab_len E s W). split; [exact Lp|]. split; [exact U|]. lia.
  - exfalso. assert (otherc f MASK_ONE) as O; [|eapply otherc_refuses; eauto]. split; [apply full_one|left]. destruct (bits_of f) as (_ & _ & -> & _). apply N.eqb_neq. lia.
Qed.
Lemma ctl_one ops s mo mo' nr : plainly E ops s -> 2 <= nr <= 128 -> passes s mo (ctl_rx_id nr) -> passes s mo' (ctl_rx_id nr) -> mo = mo'.
Proof. intros P Hn Q Q'. destruct (ctl_filter _ _ _ _ P Hn Q) as [A _]. destruct (ctl_filter _ _ _ _ P Hn Q') as [A' _]. destruct (CI_reached _ _ P) as [U _]. eapply U; eauto. Qed.
End CtlAim.
