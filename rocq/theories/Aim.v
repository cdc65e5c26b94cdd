(** Filters of the process data belong to the modules that have the numbers (C108). *)
From Verif Require Import Words WordsFacts Bits ErrModel NodeModel NodeLib NodeInv NodeSpec NodeHw NodeCnt NodeSync NodeRx NodeSilent NodePres NodeSysP NodeTx NodeNum NodeTxP NodeNr NodeMo NodeCfg NodeBusSpec EchoSpec Echo AimSpec.

(** filters of other messages *)
Definition other (f m : N) : Prop := full m /\ (N.testbit f 9 = false \/ N.testbit f 10 = true).
Definition aim (s : node) (mo p o : nat) (f : N) : Prop := f = can_ident BASE_RX (m_nr (modat s p)) o /\ r_mo (rxat (modat s p) o) = mo.
Lemma other_ctrl nr : 1 <= nr <= 140 -> other (can_ident BASE_CTRL_RX nr 0) MASK_ONE.
Proof.
  intro H. split; [apply full_one|]. destruct (bits_of (can_ident BASE_CTRL_RX nr 0)) as (_ & _ & -> & ->). unfold can_ident, u16, BASE_CTRL_RX.
  destruct (N.le_gt_cases nr 128); [right; apply N.eqb_eq; lia|left; apply N.eqb_neq; lia].
Qed.
Lemma other_sys m : full m -> other ID_SYS m.
Proof. intro H. split; [exact H|]. left. reflexivity. Qed.
Lemma other_process m : full m -> other ID_PROCESS m.
Proof. intro H. split; [exact H|]. left. reflexivity. Qed.
Lemma other_data m : full m -> other BASE_DATA_RX m.
Proof. intro H. split; [exact H|]. right. reflexivity. Qed.
Lemma other_base m : full m -> other BASE_CTRL_RX m.
Proof. intro H. split; [exact H|]. right. reflexivity. Qed.
Lemma other_refuses f m id : other f m -> 512 <= id < 1024 -> N.land (N.lxor id f) m <> 0.
Proof.
  intros ((_ & _ & M9 & M10) & F) Hi Q. pose proof (same_bit _ _ _ _ Q M9) as B9. pose proof (same_bit _ _ _ _ Q M10) as B10.
  destruct (bits_of id) as (_ & _ & I9 & I10). assert (N.testbit id 9 = true) as X by (rewrite I9; apply N.eqb_eq; lia). assert (N.testbit id 10 = false) as Y by (rewrite I10; apply N.eqb_neq; lia). destruct F; congruence.
Qed.
Lemma one_same id f : id < 2048 -> f < 2048 -> N.land (N.lxor id f) MASK_ONE = 0 -> f = id.
Proof.
  intros Li Lf Q. change MASK_ONE with (N.ones 11) in Q. rewrite N.land_ones in Q. change (2 ^ 11) with 2048 in Q.
  assert (N.lxor id f < 2048) as L.
  { destruct (N.eq_dec (N.lxor id f) 0) as [->|Nz]; [lia|]. change 2048 with (2 ^ 11). apply N.log2_lt_pow2; [lia|]. eapply N.le_lt_trans; [apply N.log2_lxor|]. apply N.max_lub_lt.
    - destruct (N.eq_dec id 0) as [->|]; [reflexivity|]. apply N.log2_lt_pow2; lia.
    - destruct (N.eq_dec f 0) as [->|]; [reflexivity|]. apply N.log2_lt_pow2; lia. }
  rewrite N.mod_small in Q by exact L. apply N.lxor_eq in Q. congruence.
Qed.

Lemma andthen_cases m1 m2 s (e : N) (s' : node) : andthen m1 m2 s = Ret (e, s') -> exists e1 s1, m1 s = Ret (e1, s1) /\ ((e1 <> ERR_OK /\ s' = s1) \/ m2 s1 = Ret (e, s')).
Proof.
  intro H. unfold andthen in H. mbind H as e1 s1 H1. exists e1, s1. split; [exact H1|]. destruct (N.eqb_spec e1 ERR_OK) as [Q|Q]; [right; exact H|left]. apply ret_inv in H. destruct H as [_ ->]. auto.
Qed.
Section Aim.
Variable E : env.
Hypothesis HE : env_ok E.
Definition AI (s : node) : Prop := forall mo f m, filt s mo = Some (f, m) ->
  other f m \/ (m = MASK_ONE /\ exists p o, (p < MAXM E)%nat /\ in_use (modat s p) = true /\ (o < m_nrx (modat s p))%nat /\ aim s mo p o f).
Lemma AI_still s s' : still s s' -> AI s -> AI s'.
Proof.
  intros (S & _ & _ & _ & F & _) I mo f m H. unfold filt in H. rewrite F in H. destruct (I mo f m H) as [O|(Q & p & o & Lp & U & Lo & A1 & A2)]; [left; exact O|right]. split; [exact Q|]. exists p, o.
  pose proof (same_f_at moinfo _ _ p S) as M. pose proof (moinfo_rx _ _ o M) as R. injection M as M1 M2 M3 _. unfold aim, in_use in *. rewrite M1, M2, M3, R. auto.
Qed.
(** while a module is added at position [pos] *)
Section Add.
Variables (pos : nat) (nr : N).
Hypothesis Hnr : 1 <= nr <= 140.
Definition J (k : nat) (s : node) : Prop := m_nr (modat s pos) = nr /\ forall mo f m, filt s mo = Some (f, m) ->
  other f m \/ (m = MASK_ONE /\ exists p o, ((p <> pos /\ (p < MAXM E)%nat /\ in_use (modat s p) = true /\ (o < m_nrx (modat s p))%nat) \/ (p = pos /\ (o < k)%nat)) /\ aim s mo p o f).
Definition JR (k : nat) (s s' : node) : Prop := J k s -> J k s'.
#[local] Instance pre_JR k : Pre (JR k) := pre_imp (J k).
Lemma J_still k s s' : same_f moinfo s s' -> h_filt (n_hw s') = h_filt (n_hw s) -> JR k s s'.
Proof.
  intros S F [N I]. split; [pose proof (same_f_at moinfo _ _ pos S) as M; injection M as _ M _ _; congruence|]. intros mo f m H. unfold filt in H. rewrite F in H.
  destruct (I mo f m H) as [O|(Q & p & o & D & A1 & A2)]; [left; exact O|right]. split; [exact Q|]. exists p, o.
  pose proof (same_f_at moinfo _ _ p S) as M. pose proof (moinfo_rx _ _ o M) as R. injection M as M1 M2 M3 _. unfold aim, in_use in *. rewrite M1, M2, M3, R. auto.
Qed.
Lemma JR_still k {A} (m : M A) : pres still m -> pres (JR k) m.
Proof. apply pres_weaken. intros s s' (S & _ & _ & _ & F & _). apply J_still; assumption. Qed.
(** a definition changes at most the filter of its object *)
Definition FD (mo : nat) (x : option (N * N)) (s s' : node) : Prop := forall k, filt s' k = filt s k \/ (k = mo /\ filt s' k = x).
#[local] Instance pre_FD mo x : Pre (FD mo x).
Proof.
  split; [intros s k; auto|]. intros a b c H1 H2 k. destruct (H2 k) as [Q|Q]; [|auto]. rewrite Q. apply H1.
Qed.
Lemma FD_define mo id mask dlc (rx : bool) sv sy : pres (FD mo (if rx then Some (id, mask) else None)) (define_obj E mo id mask dlc rx sv sy).
Proof.
  unfold define_obj, hw_define. pres_tac; try (intro k; left; reflexivity).
  intro k. unfold filt, upd_hw. cbn [h_filt n_hw set_n_hw set_h_filt]. destruct (Nat.eq_dec k mo) as [->|Nk]; [|left; apply nth_set_nth_other; congruence].
  destruct (Nat.lt_ge_cases mo (length (h_filt (n_hw s)))) as [L|L]; [right; split; [reflexivity|apply nth_set_nth_same, L]|left; rewrite set_nth_beyond by exact L; reflexivity].
Qed.
Lemma define_cfg mo id mask dlc rx sv sy s e s' : define_obj E mo id mask dlc rx sv sy s = Ret (e, s') -> n_cfg s' = n_cfg s.
Proof. intro H. eapply define_obj_full; eauto. Qed.
Lemma J_filt k s s' : n_cfg s' = n_cfg s -> (forall mo f m, filt s' mo = Some (f, m) -> filt s mo = Some (f, m) \/ other f m \/ (m = MASK_ONE /\ exists o, (o < k)%nat /\ aim s mo pos o f)) -> JR k s s'.
Proof.
  intros C F [N I]. assert (forall p, modat s' p = modat s p) as Q by (intro; unfold modat, tab_of; rewrite C; reflexivity). split; [rewrite Q; exact N|]. intros mo f m H. unfold aim in *.
  destruct (F mo f m H) as [G|[G|(G1 & o & G2 & G3)]]; [|left; exact G|].
  - destruct (I mo f m G) as [O|(Q1 & p & o & D & A)]; [left; exact O|right]. split; [exact Q1|]. exists p, o. rewrite Q. auto.
  - right. split; [exact G1|]. exists pos, o. rewrite Q. auto.
Qed.
Lemma JR_define k mo id mask dlc rx sv sy : (rx = true -> other id mask) -> pres (JR k) (define_obj E mo id mask dlc rx sv sy).
Proof.
  intros Ho s e s' H. apply J_filt; [eapply define_cfg; eauto|]. apply FD_define in H. intros k0 f m Hf. destruct (H k0) as [Q|[-> Q]]; rewrite Q in Hf; [auto|]. destruct rx; [|discriminate]. injection Hf as <- <-. auto.
Qed.
Lemma JR_shared k a b c d : 1 <= c <= 140 -> pres (JR k) (define_shared E a b c d).
Proof.
  intro Hc. unfold define_shared, get_async_ctrl_obj, next_free.
  repeat ((simple apply JR_still; apply still_silent) || (simple apply JR_define; intros _; first [apply other_ctrl; exact Hc | apply other_sys, full_class | apply other_data, full_class]) || pres_tac1); try (apply J_still; reflexivity).
Qed.
Lemma J_more k k' s : (k <= k')%nat -> J k s -> J k' s.
Proof.
  intros L [N I]. split; [exact N|]. intros mo f m H. destruct (I mo f m H) as [O|(Q & p & o & D & A)]; [left; exact O|right]. split; [exact Q|]. exists p, o. split; [|exact A]. destruct D as [D|[D1 D2]]; [auto|right; split; [exact D1|lia]].
Qed.
Lemma J_slot i s e s' : WF E s -> (pos < MAXM E)%nat -> (i < NOBJ)%nat -> J i s -> rx_slot E pos nr i s = Ret (e, s') -> J (S i) s'.
Proof.
  intros W Lp Li I H. unfold rx_slot in H. mbind H as u s1 H1. apply modify_inv in H1.
  assert (J i s1) as I1. { subst s1. revert I. apply J_still; [apply same_f_upd; intro; apply moinfo_upd_rx; reflexivity|reflexivity]. }
  assert (WF E s1) as W1 by (subst s1; revert W; apply wf_upd_mod; intros m Hm; unfold modok, upd_rx in *; cbn; rewrite set_nth_length; exact Hm). clear H1 I W.
  mbind H as mo s2 H2. apply gets_inv in H2. destruct H2 as [_ ->]. destruct mo as [mo|]; [|apply ret_inv in H; destruct H as [_ ->]; eapply J_more; [|exact I1]; lia].
  mbind H as u2 s2 H2. apply modify_inv in H2. mbind H as dlc s3 H3. apply gets_inv in H3. destruct H3 as [_ ->].
  assert (length (tab_of s1) = MAXM E) as Ln by (apply tab_len, W1).
  assert (modok (modat s1 pos)) as Mo by (apply (modat_ok E), W1).
  assert (modat s2 pos = upd_rx i (fun o => set_r_mo o mo) (modat s1 pos) /\ forall p, p <> pos -> modat s2 p = modat s1 p) as [M1 M2].
  { subst s2. split; [rewrite modat_upd_mod, Nat.eqb_refl by lia; reflexivity|]. intros p Np. rewrite modat_upd_mod by lia. apply Nat.eqb_neq in Np. rewrite Np. reflexivity. }
  assert (r_mo (rxat (modat s2 pos) i) = mo /\ forall o, o <> i -> rxat (modat s2 pos) o = rxat (modat s1 pos) o) as [R1 R2].
  { rewrite M1. unfold rxat, upd_rx. cbn [m_rx set_m_rx]. destruct Mo as (_ & _ & _ & _ & Lr & _). split; [rewrite nth_set_nth_same by lia; reflexivity|]. intros o No. apply nth_set_nth_other. congruence. }
  assert (m_nr (modat s2 pos) = nr) as Nr by (rewrite M1; exact (proj1 I1)).
  assert (J i s2) as I2.
  { split; [exact Nr|]. intros k f m Hf. assert (filt s1 k = Some (f, m)) as Hf1 by (subst s2; exact Hf). destruct (proj2 I1 k f m Hf1) as [O|(Q & p & o & D & A1 & A2)]; [left; exact O|right]. split; [exact Q|]. exists p, o. unfold aim in *.
    destruct D as [(D & D1)|[-> D]].
    - rewrite (M2 p D). auto.
    - rewrite R2 by lia. rewrite Nr. rewrite (proj1 I1) in A1. auto. }
  clear I1 H2. apply andthen_cases in H. destruct H as (e1 & s3 & H3 & H). assert (J (S i) s3) as I3.
  { refine (J_filt (S i) s2 s3 _ _ (J_more i (S i) s2 _ I2)); [eapply define_cfg; eauto| |lia]. apply FD_define in H3. intros k f m Hf. destruct (H3 k) as [Q|[-> Q]]; rewrite Q in Hf; [auto|]. injection Hf as <- <-. right. right. split; [reflexivity|]. exists i. split; [lia|]. unfold aim. rewrite Nr. auto. }
  destruct H as [[_ ->]|H]; [exact I3|]. revert I3. enough (pres (JR (S i)) (rx_data_cnfg E mo pos)) as P by exact (P _ _ _ H). unfold rx_data_cnfg. pres_tac; apply J_still; reflexivity.
Qed.
Lemma J_loop n : forall i s e s', WF E s -> (pos < MAXM E)%nat -> (i + n <= NOBJ)%nat -> J i s -> for_err n i (rx_slot E pos nr) s = Ret (e, s') -> J (i + n) s'.
Proof.
  induction n as [|n IH]; intros i s e s' W Lp Li I H; cbn [for_err] in H; [apply ret_inv in H; destruct H as [_ ->]; rewrite Nat.add_0_r; exact I|].
  mbind H as e1 s1 H1. pose proof (wf_rx_slot E _ _ _ _ _ _ H1 W) as W1. apply J_slot in H1; auto; [|lia]. replace (i + S n)%nat with (S i + n)%nat by lia.
  destruct (e1 =? ERR_OK); [eapply IH; eauto; lia|]. apply ret_inv in H. destruct H as [_ ->]. eapply J_more; [|exact H1]. lia.
Qed.
Lemma J_rest d s e s' : WF E s -> (pos < MAXM E)%nat -> (m_nrx d <= NOBJ)%nat -> J 0 s -> set_module_rest E pos d nr s = Ret (e, s') -> J (m_nrx d) s'.
Proof.
  intros W Lp Ld I H. unfold set_module_rest in H. apply andthen_cases in H. destruct H as (e1 & s1 & H1 & H).
  assert (WF E s1) as W1. { revert H1 W. match goal with |- ?m s = _ -> _ => enough (pres (WFR E) m) as P by exact (P _ _ _) end. repeat (simple apply wf_tx_data_cnfg || pres_tac1). intro W. revert W. apply wf_upd_mod. intros m Hm. unfold modok, upd_txo in *. cbn. rewrite set_nth_length. exact Hm. }
  assert (J 0 s1) as I1 by (refine (JR_still 0 _ (still_tx E pos nr _ _) _ _ _ H1 I)). destruct H as [[_ ->]|H]; [eapply J_more; [|exact I1]; lia|].
  apply andthen_cases in H. destruct H as (e2 & s2 & H2 & H). apply J_loop in H2; auto. cbn [Nat.add] in H2. destruct H as [[_ ->]|H]; [exact H2|]. revert H2.
  match type of H with ?m s2 = _ => enough (pres (JR (m_nrx d)) m) as P by exact (P _ _ _ H) end. repeat ((simple apply JR_shared; exact Hnr) || pres_tac1).
Qed.
End Add.
Lemma AI_add d nr rxs txs s e s' : WF E s -> AI s -> add_module E d nr rxs txs s = Ret (e, s') -> AI s'.
Proof.
  intros W I H. pose proof H as H0. apply add_module_inv in H0. unfold add_module in H. mbind H as tab s0 Hg. apply gets_inv in Hg. destruct Hg as [-> ->].
  destruct (first_unused (tab_of s) 0) as [i|] eqn:Fu; [|apply ret_inv in H; destruct H as [_ ->]; exact I]. destruct H0 as (Hd & _ & B & O & _).
  rewrite first_unused_next in Fu. pose proof (next_pos_spec _ _ Fu) as (Li & Ui & _). rewrite (tab_len E s W) in Li.
  assert (forall n0 e1 s1, 1 <= limit_nr i n0 <= 140 -> set_module E i d n0 rxs txs s = Ret (e1, s1) -> J i (limit_nr i n0) (m_nrx d) s1) as K.
  { clear H B O. intros n0 e1 s1 Hn H. apply set_module_inv in H. destruct H as (_ & s2 & H & Hs). assert (J i (limit_nr i n0) (m_nrx d) s2) as X.
    { refine (J_rest i (limit_nr i n0) Hn d _ _ _ _ Li _ _ H).
      - revert W. apply wf_upd_mod. intros _ _. pose proof (desc_nonempty _ Hd) as (D1 & D2 & D3 & D4 & D5). unfold modok, new_entry. cbn. rewrite length_addrs_rx, length_addrs_tx. tauto.
      - pose proof (desc_nonempty _ Hd). tauto.
      - split; [rewrite modat_upd_mod, Nat.eqb_refl by (rewrite (tab_len E s W); exact Li); reflexivity|]. intros mo f m Hf. destruct (I mo f m Hf) as [Q|(Q & p & o & Lp & U & Lo & A)]; [left; exact Q|right]. split; [exact Q|]. exists p, o.
        assert (p <> i) as Np by (intros ->; congruence). unfold aim in *. rewrite !modat_upd_mod by (rewrite (tab_len E s W); exact Li). apply Nat.eqb_neq in Np as Nq. rewrite Nq. split; [left; auto|exact A]. }
    destruct Hs as [->| ->]; exact X. }
  assert (forall n0 c, 1 <= limit_nr i n0 <= 140 -> (e1 <- set_module E i d n0 rxs txs ;; report_if e1 ;;; ret c) s = Ret (e, s') -> AI s') as Fin.
  { intros n0 c Hn Hx. mbind Hx as e1 s1 H1. apply K in H1; [|exact Hn]. mbind Hx as u s2 H2. apply ret_inv in Hx. destruct Hx as [_ ->].
    assert (n_cfg s2 = n_cfg s1 /\ n_hw s2 = n_hw s1) as [C1 C2].
    { revert H2. match goal with |- ?m s1 = _ -> _ => enough (pres (fun a c : node => n_cfg c = n_cfg a /\ n_hw c = n_hw a) m) as P by exact (P _ _ _) end. apply pres_report_if; [split; [auto|intros ? ? ? [] []; split; congruence]|]. intros; split; reflexivity. }
    assert (J i (limit_nr i n0) (m_nrx d) s2) as J2.
    { revert H1. apply J_still; [|rewrite C2; reflexivity]. unfold same_f, tab_of. rewrite C1. reflexivity. }
    intros mo f m Hf. destruct (proj2 J2 mo f m Hf) as [Q|(Q & p & o & D & A)]; [left; exact Q|right]. split; [exact Q|]. exists p, o. destruct D as [(_ & D1 & D2 & D3)|[-> D]]; [auto|]. split; [exact Li|].
    assert (in_use (modat s2 i) = true /\ m_nrx (modat s2 i) = m_nrx d) as [U1 U2].
    { split; [change (in_use (base (modat s2 i)) = true)|change (m_nrx (base (modat s2 i)) = m_nrx d)]; rewrite B; [|reflexivity]. unfold in_use. cbn. unfold desc_ok in Hd. apply andb_prop in Hd. tauto. }
    rewrite U1, U2. auto. }
  assert ((i < 8)%nat) as L8 by (destruct HE as ((_ & ?) & _); lia).
  destruct (existsb _ _); (eapply Fin; [|exact H]).
  - rewrite limit_def. unfold NR_DEF. lia.
  - unfold limit_nr, NR_MAX, NR_MIN, NR_DEF. destruct (N.ltb_spec 124 nr), (N.ltb_spec nr 2); cbn [orb]; lia.
Qed.
Lemma AI_booted s : booted E s -> AI s.
Proof.
  intros (mem & st & orc & rate & H). unfold can_init in H.
  apply andthen_inv in H. destruct H as (s1 & H1 & H). apply andthen_inv in H. destruct H as (s2 & H2 & H). apply andthen_inv in H. destruct H as (s3 & H3 & H).
  assert (forall mo, filt s3 mo = None) as F3.
  { unfold msg_objs_init in H3. mbind H3 as u s4 H4. apply modify_inv in H4. apply ret_inv in H3. destruct H3 as [_ ->]. subst s4. intro mo. unfold filt. cbn.
    destruct (nth_in_or_default mo (repeat (@None (N * N)) (NMSG E)) None) as [Q|Q]; [apply repeat_spec in Q; exact Q|exact Q]. }
  clear H1 H2 H3. set (OI := fun s : node => forall mo f m, filt s mo = Some (f, m) -> other f m).
  assert (Pre (fun a c => OI a -> OI c)) as PO by (apply pre_imp).
  assert (OI s3) as I3 by (intros mo f m Q; rewrite F3 in Q; discriminate). enough (OI s) as X by (intros mo f m Q; left; eapply X; eauto). revert H I3.
  match goal with |- ?m s3 = _ -> _ => enough (pres (fun a c => OI a -> OI c) m) as P by (intro H; exact (P _ _ _ H)) end.
  assert (forall mo id mask dlc rx sv sy, (rx = true -> other id mask) -> pres (fun a c => OI a -> OI c) (define_obj E mo id mask dlc rx sv sy)) as D.
  { intros mo id mask dlc rx sv sy Ho a e c H I k f m Hf. apply FD_define in H. destruct (H k) as [Q|[-> Q]]; rewrite Q in Hf; [eapply I; eauto|]. destruct rx; [|discriminate]. injection Hf as <- <-. auto. }
  unfold sys_init, sync_init.
  repeat ((simple apply D; intro Hr; first [discriminate Hr | first [apply other_process | apply other_sys | apply other_base]; apply full_one]) || pres_tac1); intro X; exact X.
Qed.
Lemma AI_reached ops s : plainly E ops s -> AI s.
Proof.
  intros [F (s0 & B & R)]. assert (WF E s0 /\ AI s0) as I0 by (split; [apply (WF_reached E [] s0); exists s0; split; [exact B|reflexivity]|apply AI_booted, B]). clear B. revert s0 I0 R.
  induction ops as [|o ops IH]; intros s0 [W I] R; cbn [run] in R; [apply ret_inv in R; destruct R as [_ ->]; exact I|]. mbind R as u s1 H1. destruct u. inversion F as [|? ? Po Fo]. subst. refine (IH Fo s1 _ R). split; [eapply wf_step; eauto|].
  assert ((exists d nr rxs txs, o = OpAdd d nr rxs txs) \/ (forall d nr rxs txs, o <> OpAdd d nr rxs txs)) as [(d & nr & rxs & txs & ->)|Na] by (destruct o; eauto 6; right; intros; discriminate).
  - cbn [step] in H1. unfold ignore in H1. mbind H1 as e s2 H2. apply ret_inv in H1. destruct H1 as [_ ->]. eapply AI_add; eauto.
  - eapply AI_still; [|exact I]. eapply (plain_still E); eauto.
Qed.
(** what a frame of process data meets *)
Lemma rx_meets ops s mo nr obj : plainly E ops s -> 1 <= nr <= 128 -> (obj < 4)%nat -> passes s mo (data_rx_id nr obj) -> exists p, addressed s p nr obj /\ rx_mo s p obj = mo.
Proof.
  intros P Hn Ho Q. pose proof (AI_reached _ _ P) as I. destruct P as [F R]. pose proof (NrI_reached E _ _ F R) as N. assert (WF E s) as W by (apply (WF_reached E ops); exact R). unfold passes in Q. specialize (I mo). unfold filt in I.
  destruct (nth mo (h_filt (n_hw s)) None) as [[f m]|]; [|destruct Q]. destruct (I f m eq_refl) as [O|(-> & p & o & Lp & U & Lo & A1 & A2)]; [exfalso; eapply other_refuses; [exact O| |exact Q]; unfold data_rx_id; lia|].
  pose proof (modat_ok E s p W) as (M1 & _). unfold NOBJ in M1. pose proof (nr_cls E _ N p Lp U) as Cl. destruct HE as ((_ & L8) & _).
  assert (f = data_rx_id (m_nr (modat s p)) o) as Qf by (rewrite A1; unfold can_ident, u16, BASE_RX, data_rx_id, NR_DEF in *; lia).
  assert (f = data_rx_id nr obj) as Qg by (apply one_same; [unfold data_rx_id; lia|rewrite Qf; unfold data_rx_id, NR_DEF in *; lia|exact Q]).
  assert (m_nr (modat s p) = nr /\ o = obj) as [E1 E2] by (rewrite Qf in Qg; unfold data_rx_id, NR_DEF in *; lia). subst o.
  exists p. unfold addressed. rewrite (tab_len E s W). auto.
Qed.
End Aim.
