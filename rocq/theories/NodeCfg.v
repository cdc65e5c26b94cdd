(** Configuration: completeness of a module's message objects under additions, number changes and all other
    operations (C17, C32, C33, C34), positions and numbers of added modules (C28, C29, C30). *)
From Verif Require Import Words WordsFacts Bits ErrModel NodeModel NodeLib NodeInv NodeSpec NodeHw NodeCnt NodeSync NodeRx NodeSilent NodePres NodeSysP NodeTx NodeSend NodeNum NodeTxP NodeNr NodeImage NodeMo.

Section Cfg.
Variable E : env.
Hypothesis HE : env_ok E.

Lemma data_rx_eq nr i : 1 <= nr -> nr < 8000 -> (i < NOBJ)%nat -> can_ident BASE_RX nr i = data_rx_id nr i.
Proof. intros H1 H2 H3. unfold can_ident, data_rx_id, BASE_RX, u16. unfold NOBJ in H3. lia. Qed.
Lemma ctl_rx_eq nr : 1 <= nr -> nr < 8000 -> can_ident BASE_CTRL_RX nr 0 = ctl_rx_id nr.
Proof. intros H1 H2. unfold can_ident, ctl_rx_id, BASE_CTRL_RX, u16. lia. Qed.

Lemma complete_calm s s' p : CtlI E s -> calm E s s' -> moinfo (modat s' p) = moinfo (modat s p) -> ctl_mo s' p = ctl_mo s p -> (p < nmod s')%nat -> complete E s p -> complete E s' p.
Proof.
  intros (I & C) (C1 & C2 & C3 & C4 & l & C5) Mi Ct Ln (_ & Cr & Cc). split; [exact Ln|]. pose proof (fun i => moinfo_rx _ _ i Mi) as Rx. injection Mi as _ Q2 Q3 _. split.
  - intros i Hi. rewrite Q3 in Hi. unfold rx_mo. rewrite Rx, Q2. fold (rx_mo s p i). destruct (Cr i Hi) as (R1 & R2 & R3).
    split; [unfold registered; rewrite C5; apply in_or_app; left; exact R1|]. split; [apply C4, R2|]. unfold listens. fold (filt s' (rx_mo s p i)). rewrite C1; [exact R3| |]; destruct I as (_ & I & _); apply (in_map fst) in R1; apply I in R1; apply R1.
  - intro As. rewrite Ct, Q2. destruct (Cc As) as [R1 R2]. split; [apply C3, R1|]. unfold listens. fold (filt s' (ctl_mo s p)). rewrite C1; [exact R2| |]; apply C in R1; apply R1.
Qed.
Lemma complete_still s s' p : CtlI E s -> still s s' -> complete E s p -> complete E s' p.
Proof.
  intros I St C. eapply complete_calm; eauto.
  - apply still_calm, St.
  - apply (same_f_at moinfo), St.
  - unfold ctl_mo. destruct St as (_ & -> & _). reflexivity.
  - unfold nmod. destruct St as (_ & _ & -> & _). apply C.
Qed.
Lemma find_shift (f : nat -> bool) l : find f (map S l) = option_map S (find (fun p => f (S p)) l).
Proof. induction l as [|x l IH]; cbn [map find]; [reflexivity|]. destruct (f (S x)); [reflexivity|exact IH]. Qed.
Lemma first_unused_next s : first_unused (tab_of s) 0 = next_pos s.
Proof.
  unfold next_pos, modat. generalize (tab_of s). intro tab.
  assert (forall i, first_unused tab i = option_map (fun p => (i + p)%nat) (find (fun p => negb (in_use (nth p tab modl0))) (seq 0 (length tab)))) as K.
  { induction tab as [|m t IH]; intro i; cbn [first_unused length seq find nth]; [reflexivity|]. unfold in_use at 1. rewrite negb_involutive.
    destruct (hd 0 (m_type m) =? 0); [cbn; rewrite Nat.add_0_r; reflexivity|]. rewrite IH, <- seq_shift, find_shift. cbn [nth].
    destruct (find _ _); cbn; [f_equal; lia|reflexivity]. }
  rewrite K. destruct (find _ _); reflexivity.
Qed.
Lemma next_pos_spec s i : next_pos s = Some i -> (i < length (tab_of s))%nat /\ in_use (modat s i) = false /\ forall p, (p < i)%nat -> in_use (modat s p) = true.
Proof.
  intro H. rewrite <- first_unused_next in H. apply first_unused_spec in H. rewrite Nat.sub_0_r in H. destruct H as (H1 & H2 & H3). split; [lia|]. split; assumption.
Qed.
Lemma next_pos_none s p : next_pos s = None -> (p < length (tab_of s))%nat -> in_use (modat s p) = true.
Proof.
  intros H Lp. assert (In p (seq 0 (length (tab_of s)))) as Q by (apply in_seq; lia). apply (find_none _ _ H) in Q. apply negb_false_iff in Q. exact Q.
Qed.
Lemma given_final s i nr : (i <= length (tab_of s))%nat -> final_nr s i nr = given_nr s i nr.
Proof.
  intro Li. unfold final_nr, given_nr, limit_nr, NR_MAX, NR_MIN, NR_DEF.
  assert (existsb (fun m => m_nr m =? nr) (firstn i (tab_of s)) = existsb (fun q => m_nr (modat s q) =? nr) (seq 0 i)) as ->.
  { apply eq_true_iff_eq. rewrite !existsb_exists. split.
    - intros (m & Hm & Hn). apply (In_nth _ _ modl0) in Hm. destruct Hm as (k & Hk & <-). rewrite firstn_length in Hk. exists k. split; [apply in_seq; lia|].
      unfold modat. rewrite <- (firstn_skipn i (tab_of s)), app_nth1 by (rewrite firstn_length; lia). exact Hn.
    - intros (k & Hk & Hn). apply in_seq in Hk. exists (modat s k). split; [|exact Hn]. unfold modat. rewrite <- (firstn_skipn i (tab_of s)) at 1. rewrite app_nth1 by (rewrite firstn_length; lia).
      apply nth_In. rewrite firstn_length. lia. }
  destruct (existsb _ _); cbn [negb]; rewrite ?andb_false_r, ?andb_true_r; [reflexivity|]. destruct (N.leb_spec 2 nr), (N.leb_spec nr 124), (N.ltb_spec 124 nr), (N.ltb_spec nr 2); cbn; lia.
Qed.
Lemma given_range s i nr : (i < MAXM E)%nat -> 1 <= given_nr s i nr < 8000.
Proof. intro Li. destruct HE as ((_ & M8) & _). unfold given_nr. destruct (N.leb_spec 2 nr), (N.leb_spec nr 124); cbn [andb]; try lia. destruct (negb _); lia. Qed.

Definition keep_err (a c : node) : Prop := n_err c = n_err a.
#[local] Instance pre_keep_err : Pre keep_err.
Proof. split; [reflexivity|unfold keep_err; congruence]. Qed.
Lemma err_define mo id mask dlc rx sv sy : pres keep_err (define_obj E mo id mask dlc rx sv sy).
Proof. unfold define_obj, hw_define. pres_tac; reflexivity. Qed.
Lemma err_silent p st : pres keep_err (set_silent_awake E p st).
Proof.
  unfold set_silent_awake, sync_off, sync_on, tx_data_on, tx_data_off.
  repeat ((simple apply pres_call_rx; [typeclasses eauto| intros; reflexivity]) || pres_tac1); reflexivity.
Qed.
Lemma err_shared a b c d : pres keep_err (define_shared E a b c d).
Proof. unfold define_shared, get_async_ctrl_obj, next_free. repeat (simple apply err_define || simple apply err_silent || pres_tac1); reflexivity. Qed.
Lemma err_set_module i d nr rxs txs : pres keep_err (set_module E i d nr rxs txs).
Proof.
  unfold set_module, rx_slot, next_free, rx_data_cnfg, tx_data_cnfg.
  repeat (simple apply err_shared || simple apply err_define || pres_tac1); reflexivity.
Qed.
Lemma err_nr_ids t n a : pres keep_err (change_nr_ids E t n a).
Proof.
  unfold change_nr_ids, tx_data_cnfg. repeat (simple apply err_shared || simple apply err_define || pres_tac1); reflexivity.
Qed.
Lemma add_mo d nr rxs txs s e s' i : WF E s -> CtlI E s -> next_pos s = Some i -> add_module E d nr rxs txs s = Ret (e, s') ->
  exists s1 c, report_if c s1 = Ret (tt, s') /\ n_err s1 = n_err s /\ calm E s s1 /\ (forall p, p <> i -> modat s1 p = modat s p) /\ (forall n, (n < nmod s)%nat -> ctl_mo s1 n = ctl_mo s n) /\
   (nmod s <= nmod s1)%nat /\ (c = ERR_OK -> added_at E s s1 i d (given_nr s i nr)).
Proof.
  intros W (I & _) Np H. unfold add_module in H. mbind H as tab s0 H0. apply gets_inv in H0. destruct H0 as [-> ->]. rewrite first_unused_next, Np in H.
  apply next_pos_spec in Np. destruct Np as (Li & Ui & Bi). rewrite <- given_final by lia. rewrite (tab_len E s W) in Li. unfold final_nr.
  destruct (existsb _ _).
  - mbind H as c s1 H1. mbind H as u s2 H2. destruct u. apply ret_inv in H. destruct H as [_ ->]. exists s1, c. split; [exact H2|]. split; [eapply err_set_module, H1|].
    apply (set_module_mo E HE) in H1; auto. rewrite limit_def in H1. exact H1.
  - mbind H as c s1 H1. mbind H as u s2 H2. destruct u. apply ret_inv in H. destruct H as [_ ->]. exists s1, c. split; [exact H2|]. split; [eapply err_set_module, H1|].
    apply (set_module_mo E HE) in H1; auto.
Qed.
(** [o] is free in [s] and none of the fixed objects *)
Lemma report_cfg c s1 s' : report_if c s1 = Ret (tt, s') -> n_cfg s' = n_cfg s1 /\ n_hw s' = n_hw s1 /\ n_tx s' = n_tx s1.
Proof. intro H. apply report_if_inv in H. destruct (c =? ERR_OK); [subst; auto|]. destruct H as [-> _]. auto. Qed.
Lemma addition d nr rxs txs pre s s' i : reached E pre s -> next_pos s = Some i -> step E (OpAdd d nr rxs txs) s = Ret (tt, s') ->
  (n_err s' = n_err s /\ nmod s' = S (nmod s) /\ (nmod s = i -> complete E s' i) /\
   (forall j, (j < m_nrx d)%nat -> taken s (rx_mo s' i j) = false /\ (rx_mo s' i j < NMSG E)%nat /\ ~ In (rx_mo s' i j) (fixed_mo E) /\ registered s' (rx_mo s' i j) i) /\
   (ASY E = true -> taken s (ctl_mo s' (nmod s)) = false /\ (ctl_mo s' (nmod s) < NMSG E)%nat /\ ~ In (ctl_mo s' (nmod s)) (fixed_mo E))) \/ reported s s'.
Proof.
  intros R Np H. pose proof (WF_reached E _ _ R) as W. pose proof (CtlI_reached E HE _ _ R) as I. cbn [step] in H. unfold ignore in H. mbind H as e s0 H0. apply ret_inv in H. destruct H as [_ ->].
  pose proof (wf_add_module E _ _ _ _ _ _ _ H0 W) as W0.
  eapply add_mo in H0; eauto. destruct H0 as (s1 & c & Hr & Er & Ca & Oa & Ka & Na & Ad). pose proof (report_cfg _ _ _ Hr) as (Q1 & Q2 & Q3). apply report_if_inv in Hr.
  destruct (c =? ERR_OK) eqn:Ec.
  - left. apply N.eqb_eq in Ec. destruct (Ad Ec) as [A1 A2 A3 A4 A5]. subst s0. split; [exact Er|]. split; [lia|]. apply next_pos_spec in Np. destruct Np as (Li & Ui & Bi). rewrite (tab_len E s W) in Li.
    pose proof (given_range s i nr Li) as [G1 G2]. injection A2 as M1 M2 M3. pose proof W0 as (_ & _ & Hw & _).
    assert (forall mo, used s1 mo = true -> (mo < NMSG E)%nat) as Lu. { intros mo Hu. destruct (Nat.lt_ge_cases mo (NMSG E)); auto. unfold used in Hu. rewrite nth_overflow in Hu by (destruct Hw as (Hw & _); rewrite Hw; lia). discriminate. }
    pose proof (modat_ok E s1 i W0) as (Mo & _). rewrite M3 in Mo.
    split; [intro Nn; rewrite Nn in *; split; [lia|split]|split].
    + intros j Hj. rewrite M3 in Hj. destruct (A3 j Hj) as (O1 & O2 & O3 & O4 & O5 & O6). split; [exact O3|]. split; [exact O4|]. rewrite M2, <- data_rx_eq; auto.
      eapply Nat.lt_le_trans; eauto.
    + intro As. destruct (A5 As) as (_ & O1 & O2 & O3 & O4 & O5). split; [exact O3|]. rewrite M2, <- ctl_rx_eq; auto.
    + intros j Hj. destruct (A3 j Hj) as (O1 & O2 & O3 & O4 & O5 & O6). split; [auto|]. split; [auto|]. split; [auto|exact O3].
    + intro As. destruct (A5 As) as (_ & O1 & O2 & O3 & O4 & O5). auto.
  - right. destruct Hr as [Hr (r & Q)]. exists c, r. split; [apply N.eqb_neq; exact Ec|]. unfold nr_main in *. rewrite <- Er. unfold modat, tab_of in *. rewrite Q1. exact Q.
Qed.

(** ** no two objects share a message object *)
Lemma registered_inj s mo p q : HwI E s -> registered s mo p -> registered s mo q -> p = q.
Proof.
  intros (_ & _ & Nd) Hp Hq. unfold registered in *. induction (h_rxtab (n_hw s)) as [|[a x] l IH]; [destruct Hp|]. cbn in Nd. inversion Nd as [|? ? N1 N2]; subst. cbn in Hp, Hq.
  destruct Hp as [Hp|Hp], Hq as [Hq|Hq].
  - congruence.
  - injection Hp as -> ->. exfalso. apply N1. apply (in_map fst) in Hq. exact Hq.
  - injection Hq as -> ->. exfalso. apply N1. apply (in_map fst) in Hp. exact Hp.
  - auto.
Qed.
Lemma rx_distinct s p q i j : HwI E s -> complete E s p -> complete E s q -> (i < m_nrx (modat s p))%nat -> (j < m_nrx (modat s q))%nat -> rx_mo s p i = rx_mo s q j -> p = q /\ i = j.
Proof.
  intros I (_ & Cp & _) (_ & Cq & _) Hi Hj Q. destruct (Cp i Hi) as (P1 & _ & P3). destruct (Cq j Hj) as (Q1 & _ & Q3). rewrite Q in *.
  pose proof (registered_inj _ _ _ _ I P1 Q1) as ->. split; [reflexivity|]. unfold listens in *. rewrite P3 in Q3. injection Q3 as Q3. unfold data_rx_id in Q3. lia.
Qed.
Lemma rx_ctl s p q i : CtlI E s -> ASY E = true -> complete E s p -> complete E s q -> (i < m_nrx (modat s p))%nat -> rx_mo s p i <> ctl_mo s q.
Proof.
  intros (_ & I) As (_ & Cp & _) (_ & _ & Cq) Hi Q. destruct (Cp i Hi) as (P1 & _). destruct (Cq As) as [Q1 _]. apply I in Q1. destruct Q1 as (_ & _ & Q1). apply Q1. rewrite <- Q. apply (in_map fst) in P1. exact P1.
Qed.
Lemma ctl_distinct s p q : ASY E = true -> complete E s p -> complete E s q -> 1 <= m_nr (modat s p) -> 1 <= m_nr (modat s q) -> m_nr (modat s p) <> m_nr (modat s q) -> ctl_mo s p <> ctl_mo s q.
Proof.
  intros As (_ & _ & Cp) (_ & _ & Cq) H1 H2 Hn Q. destruct (Cp As) as [_ P]. destruct (Cq As) as [_ P']. unfold listens in *. rewrite Q, P' in P. injection P as P. unfold ctl_rx_id in P. lia.
Qed.
Lemma not_fixed s p : CtlI E s -> complete E s p -> (forall i, (i < m_nrx (modat s p))%nat -> ~ In (rx_mo s p i) (fixed_mo E)) /\ (ASY E = true -> ~ In (ctl_mo s p) (fixed_mo E)).
Proof.
  intros ((_ & I & _) & C) (_ & Cr & Cc). split.
  - intros i Hi. destruct (Cr i Hi) as (P1 & _). apply (in_map fst) in P1. apply I in P1. apply P1.
  - intro As. destruct (Cc As) as [P1 _]. apply C in P1. apply P1.
Qed.

(** ** number changes *)
Definition redef (m : modl) (new : N) (i : nat) : M N := let o := rxat m i in define_obj E (r_mo o) (can_ident BASE_RX new i) MASK_ONE (r_dlc o) true SvRx true.
Lemma redef_loop m new n s s' : WF E s -> (forall i j, (i < n)%nat -> (j < n)%nat -> r_mo (rxat m i) = r_mo (rxat m j) -> i = j) -> for_err n 0 (redef m new) s = Ret (ERR_OK, s') ->
  WF E s' /\ n_cfg s' = n_cfg s /\ h_rxtab (n_hw s') = h_rxtab (n_hw s) /\ (forall k, used s k = true -> used s' k = true) /\ (forall k, is_sync_mo k s = true -> is_sync_mo k s' = true) /\
  (forall k, is_ctl s' k = is_ctl s k) /\ (forall k, (forall j, (j < n)%nat -> k <> r_mo (rxat m j)) -> filt s' k = filt s k) /\
  (forall j, (j < n)%nat -> filt s' (r_mo (rxat m j)) = Some (can_ident BASE_RX new j, MASK_ONE)) /\ n_tx s' = n_tx s.
Proof.
  intros W Inj H.
  eapply (for_err_ind (fun k sk => WF E sk /\ n_cfg sk = n_cfg s /\ h_rxtab (n_hw sk) = h_rxtab (n_hw s) /\ (forall k, used s k = true -> used sk k = true) /\ (forall k, is_sync_mo k s = true -> is_sync_mo k sk = true) /\
    (forall k, is_ctl sk k = is_ctl s k) /\ (forall k, (forall j, (j < n)%nat -> k <> r_mo (rxat m j)) -> filt sk k = filt s k) /\
    (forall j, (j < k)%nat -> filt sk (r_mo (rxat m j)) = Some (can_ident BASE_RX new j, MASK_ONE)) /\ n_tx sk = n_tx s)) in H; [exact H| |].
  - intros k sa sb Hk (J0 & J1 & J2 & J3 & J4 & J5 & J6 & J7 & J8) Hs. unfold redef in Hs. cbv zeta in Hs. pose proof (wf_define_obj E _ _ _ _ _ _ _ _ _ _ Hs J0) as Wb.
    assert (n_tx sb = n_tx sa) as T. { apply (tx_define_obj E) in Hs. apply Hs. }
    apply (define_obj_full E HE) in Hs. destruct Hs as (D1 & D2 & D3 & D4 & D5 & D6 & D7). destruct (D7 eq_refl) as (L1 & L2 & L3 & L4).
    split; [exact Wb|]. split; [congruence|]. split; [congruence|]. split; [auto|]. split; [auto|]. split; [intro x; rewrite D6, J5; cbn; apply orb_false_r|].
    split; [intros x Hx; rewrite D4; [auto|apply Hx; lia]|]. split; [|congruence]. intros j Hj. destruct (Nat.eq_dec j k) as [->|Nj].
    + apply L3. apply J0.
    + rewrite D4; [apply J7; lia|]. intro Q. apply Inj in Q; lia.
  - repeat split; auto; try lia; try apply W.
Qed.
Lemma cnfg_loop pos nr n : (pos < MAXM E)%nat -> (n <= NOBJ)%nat -> forall s s', WF E s -> for_err n 0 (fun i => tx_data_cnfg E pos i nr) s = Ret (ERR_OK, s') ->
  WF E s' /\ n_cfg s' = n_cfg s /\ n_hw s' = n_hw s /\ forall o, (o < n)%nat -> tx_ident s' pos o = can_ident BASE_TX nr o.
Proof.
  intros Lp Ln s s' W H.
  eapply (for_err_ind (fun k sk => WF E sk /\ n_cfg sk = n_cfg s /\ n_hw sk = n_hw s /\ forall o, (o < k)%nat -> tx_ident sk pos o = can_ident BASE_TX nr o)) in H; [exact H| |].
  - intros k sa sb Hk (J0 & J1 & J2 & J3) Hs. pose proof (wf_tx_data_cnfg E _ _ _ _ _ _ Hs J0) as Wb. split; [exact Wb|]. unfold tx_data_cnfg in Hs.
    apply Nat.leb_gt in Lp as Q1. rewrite Q1 in Hs. assert ((NOBJ <=? k)%nat = false) as Q2 by (apply Nat.leb_gt; lia). rewrite Q2 in Hs.
    mbind Hs as dlc s1 H1. apply gets_inv in H1. destruct H1 as [_ ->]. mbind Hs as u s2 H2. apply modify_inv in H2. apply ret_inv in Hs. destruct Hs as [_ ->]. subst s2.
    split; [exact J1|]. split; [exact J2|]. intros o Ho. unfold tx_ident. cbn [upd_tx set_n_tx n_tx x_id].
    destruct J0 as (_ & ((Rl & Rf) & _) & _). unfold set2. rewrite nth_set_nth_same by lia. destruct (Nat.eq_dec o k) as [->|No].
    + apply nth_set_nth_same. rewrite Forall_forall in Rf. rewrite (Rf (nth pos (x_id (n_tx sa)) [])); [lia|]. apply nth_In. lia.
    + rewrite nth_set_nth_other by congruence. apply J3. lia.
  - repeat split; auto; try lia; try apply W.
Qed.
Definition keep_id (a c : node) : Prop := same_f m_ntx a c /\ x_id (n_tx c) = x_id (n_tx a).
#[local] Instance pre_keep_id : Pre keep_id.
Proof. split; [split; reflexivity|]. intros a b c [H1 H2] [G1 G2]. split; [eapply pre_trans; eauto|congruence]. Qed.
Ltac ki_leaf := split; [first [reflexivity | apply same_f_upd; intro; reflexivity]|reflexivity].
Lemma ki_silent p st : pres keep_id (set_silent_awake E p st).
Proof.
  unfold set_silent_awake, sync_off, sync_on, tx_data_on, tx_data_off.
  repeat ((simple apply pres_call_rx; [typeclasses eauto| intros; ki_leaf]) || pres_tac1); ki_leaf.
Qed.
Record renumbered (s s' : node) (p : nat) (new : N) : Prop := {
  rn_complete : complete E s' p;
  rn_others : forall q, q <> p -> complete E s q -> complete E s' q;
  rn_tx : forall o, (o < m_ntx (modat s' p))%nat -> tx_ident s' p o = can_ident BASE_TX new o;
  rn_shared : shared_filters E s' (mask_of (map m_nr (firstn (nmod s') (tab_of s'))))
}.
Lemma nr_ids_mo type new actual s s' p : WF E s -> CtlI E s -> named s type actual = Some p -> 1 <= new -> new < 8000 -> complete E s p -> change_nr_ids E type new actual s = Ret (ERR_OK, s') -> renumbered s s' p new.
Proof.
  intros W I Hn N1 N2 Cp H. pose proof Hn as Hnm. pose proof H as H'. unfold change_nr_ids in H. mbind H as tab s0 H0. apply gets_inv in H0. destruct H0 as [-> ->]. rewrite find_type_nr_named, Hn in H. apply named_spec in Hn. destruct Hn as (Lp & _).
  pose proof (tab_len E s W) as Lt. mbind H as u sa H1. apply modify_inv in H1. mbind H as m sx Hm. apply gets_inv in Hm. destruct Hm as [-> ->].
  assert (WF E sa) as Wa. { subst sa. revert W. apply wf_upd_mod. intros x Hx. exact Hx. }
  assert (forall q, modat sa q = if (q =? p)%nat then set_m_nr (modat s p) new else modat s q) as Ma. { intro q. subst sa. rewrite modat_upd_mod by exact Lp. destruct (Nat.eqb_spec q p) as [->|]; reflexivity. }
  assert (n_hw sa = n_hw s /\ k_actrl (n_cfg sa) = k_actrl (n_cfg s) /\ nmod sa = nmod s) as (Ha & Ka & Na) by (subst sa; repeat split).
  apply andthen_inv in H. destruct H as (sb & Hb & H). apply andthen_inv in H. destruct H as (sc & Hc & H).
  apply cnfg_loop in Hb; auto; [|lia|apply (modat_ok E sa p Wa)]. destruct Hb as (Wb & Kb & Hwb & Tb).
  assert (forall i, rxat (modat sa p) i = rxat (modat s p) i) as Rx by (intro i; rewrite Ma, Nat.eqb_refl; reflexivity).
  assert (m_nrx (modat sa p) = m_nrx (modat s p) /\ m_ntx (modat sa p) = m_ntx (modat s p)) as [Rn Tn] by (rewrite Ma, Nat.eqb_refl; split; reflexivity).
  apply (redef_loop (modat sa p) new) in Hc; [|exact Wb|]. 2: { intros i j Hi Hj Q. rewrite !Rx in Q. rewrite Rn in *. destruct I as [I _]. eapply (rx_distinct s p p); eauto. }
  destruct Hc as (Wc & Kc & Tc & Uc & Sc & Cc & Fc & Fr & Xc). rewrite Rn in Fc, Fr. assert (forall j, r_mo (rxat (modat sa p) j) = rx_mo s p j) as Rm by (intro j; rewrite Rx; reflexivity).
  assert (CtlI E sc) as Ic.
  { destruct I as [(I1 & I2 & I3) I4]. unfold CtlI, HwI. rewrite Tc, Hwb, Ha. assert (forall k, used s k = true -> used sc k = true) as U by (intros k Hk; apply Uc; unfold used; rewrite Hwb, Ha; exact Hk).
    repeat split; auto.
    - apply U, I2, H0.
    - apply I2, H0.
    - apply U, I4. unfold is_ctl in *. rewrite Cc in H0. unfold is_ctl in H0. rewrite Hwb, Ha in H0. exact H0.
    - apply I4. rewrite Cc in H0. unfold is_ctl in *. rewrite Hwb, Ha in H0. exact H0.
    - apply I4. rewrite Cc in H0. unfold is_ctl in *. rewrite Hwb, Ha in H0. exact H0. }
  mbind H as tab' sx Hx. apply gets_inv in Hx. destruct Hx as [-> ->]. mbind H as n sx Hx. apply gets_inv in Hx. destruct Hx as [-> ->].
  rewrite define_shared_eq in H. apply andthen_inv in H. destruct H as (sd & Hd & H). set (mask := mask_of _) in *.
  mbind H as st sx Hx. apply gets_inv in Hx. destruct Hx as [-> ->]. pose proof (ki_silent _ _ _ _ _ H) as [Kt Kx]. apply (still_silent E) in H.
  assert (nmod sc = nmod s) as Nc by (unfold nmod in *; rewrite Kc, Kb; exact Na). assert (forall q, modat sc q = modat sa q) as Mc by (intro q; unfold modat, tab_of; rewrite Kc, Kb; reflexivity).
  pose proof (shared_calm E HE _ _ _ _ _ _ Hd) as Cd. pose proof (aside_shared E HE p _ _ _ _ _ _ Hd) as (_ & _ & _ & Ad & Nd). pose proof (same_tab_shared E HE _ _ _ _ _ _ Hd) as Td.
  pose proof (CtlR_shared_objs E HE _ _ _ _ _ _ Hd Ic) as Id. assert (n_tx sd = n_tx sc) as Xd. { apply (tx_shared E) in Hd. apply Hd. }
  apply (shared_ok E HE) in Hd; [|exact Wc|apply Ic]. destruct Hd as [Sf Ct].
  assert (forall q, modat sd q = modat sa q) as Md by (intro q; unfold modat at 1; rewrite Td; apply Mc).
  assert (forall n, ctl_mo sc n = ctl_mo s n) as Kcc by (intro n; unfold ctl_mo; rewrite Kc, Kb, Ka; reflexivity).
  constructor.
  - apply (complete_still sd); auto. destruct Cp as (P1 & P2 & P3). split; [lia|]. rewrite Md, Ma, Nat.eqb_refl. cbn [m_nrx m_nr set_m_nr].
    assert (forall i, rx_mo sd p i = rx_mo s p i) as Rd by (intro i; unfold rx_mo; rewrite Md, Ma, Nat.eqb_refl; reflexivity). split.
    + intros i Hi. rewrite Rd. destruct (P2 i Hi) as (Q1 & Q2 & Q3). destruct Cd as (D1 & D2 & D3 & D4 & l & D5).
      assert (registered sc (rx_mo s p i) p) as Q1c by (unfold registered; rewrite Tc, Hwb, Ha; exact Q1). split; [unfold registered; rewrite D5; apply in_or_app; left; exact Q1c|].
      split; [apply D4, Sc; unfold is_sync_mo; rewrite Hwb, Ha; exact Q2|]. unfold listens. fold (filt sd (rx_mo s p i)). destruct Ic as [(_ & Ic & _) _]. apply (in_map fst) in Q1c. apply Ic in Q1c.
      rewrite D1 by apply Q1c. rewrite <- data_rx_eq; auto; [rewrite <- Rm; apply Fr, Hi|]. eapply Nat.lt_le_trans; [exact Hi|apply (modat_ok E s p W)].
    + intro As. destruct (Ct As) as (_ & C1 & C2 & C3 & C4 & C5). split; [exact C3|]. rewrite <- ctl_rx_eq; auto.
  - intros q Nq Cq. apply (complete_still sd); auto. apply (complete_calm sc); auto.
    + rewrite Md, Mc. reflexivity.
    + lia || (destruct Cq; lia).
    + destruct Cq as (P1 & P2 & P3). split; [lia|]. assert (modat sc q = modat s q) as Mq by (rewrite Mc, Ma; apply Nat.eqb_neq in Nq; rewrite Nq; reflexivity).
      assert (forall i, rx_mo sc q i = rx_mo s q i) as Rq by (intro i; unfold rx_mo; rewrite Mq; reflexivity). rewrite Mq. split.
      * intros i Hi. rewrite Rq. destruct (P2 i Hi) as (Q1 & Q2 & Q3). split; [unfold registered; rewrite Tc, Hwb, Ha; exact Q1|]. split; [apply Sc; unfold is_sync_mo; rewrite Hwb, Ha; exact Q2|].
        unfold listens. fold (filt sc (rx_mo s q i)). rewrite Fc; [unfold filt; rewrite Hwb, Ha; exact Q3|]. intros j Hj. rewrite Rm. intro Q. apply Nq. destruct I as [I _]. eapply (rx_distinct s q p i j); eauto. split; auto.
      * intro As. rewrite Kcc. destruct (P3 As) as [Q1 Q2]. split; [rewrite Cc; unfold is_ctl; rewrite Hwb, Ha; exact Q1|]. unfold listens. fold (filt sc (ctl_mo s q)). rewrite Fc; [unfold filt; rewrite Hwb, Ha; exact Q2|].
        intros j Hj Q. rewrite Rm in Q. symmetry in Q. revert Q. apply rx_ctl; auto. split; auto.
  - intros o Ho. assert (m_ntx (modat s' p) = m_ntx (modat sa p)) as Q by (rewrite (same_f_at m_ntx _ _ p Kt), Md; reflexivity).
    rewrite Q in Ho. rewrite <- (Tb o Ho). unfold tx_ident. rewrite Kx, Xd, Xc. reflexivity.
  - destruct H as (S1 & S2 & S3 & S4 & S5 & S6 & S7 & S8). assert (mask_of (map m_nr (firstn (nmod s') (tab_of s'))) = mask) as ->.
    { unfold mask. unfold nmod in *. rewrite S3, Nd. rewrite <- !firstn_map. do 2 f_equal. rewrite <- Td.
      apply (f_equal (map (fun x => snd (fst (fst x))))) in S1. rewrite !map_map in S1. exact S1. }
    unfold shared_filters, filt in *. rewrite S5. exact Sf.
Qed.

(** ** the acceptance mask *)
Lemma fold_lor l : forall a b, N.testbit (fold_left (fun a nr => N.lor a (idbits nr)) l a) b = N.testbit a b || existsb (fun nr => N.testbit (idbits nr) b) l.
Proof. induction l as [|x l IH]; intros a b; cbn [fold_left existsb]; [rewrite orb_false_r; reflexivity|]. rewrite IH, N.lor_spec, orb_assoc. reflexivity. Qed.
Lemma fold_land l : fold_left (fun a nr => N.land a (idbits nr)) l 0 = 0.
Proof. induction l as [|x l IH]; cbn [fold_left]; [reflexivity|]. exact IH. Qed.
Lemma small_ids : forallb (fun k => let x := 4 * N.of_nat k in (N.land x 1539 =? 0) && (N.lxor (2 + x) 2 =? x) && (N.lxor (1538 + x) 1538 =? x) && (N.land 508 x =? x)) (seq 0 128) = true.
Proof. vm_compute. reflexivity. Qed.
Lemma small_id nr : 1 <= nr <= 128 -> let x := 4 * (nr - 1) in N.land x 1539 = 0 /\ N.lxor (2 + x) 2 = x /\ N.lxor (1538 + x) 1538 = x /\ idbits nr = x.
Proof.
  intros H x. pose proof small_ids as A. rewrite forallb_forall in A. specialize (A (N.to_nat (nr - 1))). rewrite N2Nat.id in A. fold x in A.
  assert (In (N.to_nat (nr - 1)) (seq 0 128)) as Q by (apply in_seq; lia). apply A in Q. rewrite !andb_true_iff, !N.eqb_eq in Q. destruct Q as [[[Q1 Q2] Q3] Q4].
  repeat split; auto. unfold idbits. replace (u32 ((nr + 4294967295) * 4)) with x; [exact Q4|]. unfold u32, x. lia.
Qed.
Lemma mask_clear nrs nr : 1 <= nr <= 128 -> nr = 1 \/ In nr nrs -> N.land (4 * (nr - 1)) (mask_of nrs) = 0.
Proof.
  intros H Hi. pose proof (small_id nr H) as (_ & _ & _ & <-). destruct Hi as [->|Hi]; [reflexivity|]. apply N.bits_inj. intro b. rewrite N.land_spec, N.bits_0. unfold mask_of. rewrite fold_land, N.lor_0_l, N.land_spec, N.lxor_spec, fold_lor, N.bits_0. cbn [orb].
  destruct (N.testbit (idbits nr) b) eqn:T; [|reflexivity]. assert (existsb (fun n => N.testbit (idbits n) b) nrs = true) as -> by (apply existsb_exists; eauto).
  unfold idbits in T. rewrite N.land_spec in T. apply andb_prop in T. destruct T as [T _]. rewrite T. cbn [andb xorb]. destruct (N.lt_ge_cases b 16) as [L|L].
  - change 65535 with (N.ones 16). rewrite N.ones_spec_low by exact L. reflexivity.
  - rewrite N.bits_above_log2 in T; [discriminate|]. eapply N.lt_le_trans; [|exact L]. reflexivity.
Qed.
Lemma mask_hears s nrs nr : shared_filters E s (mask_of nrs) -> 1 <= nr <= 128 -> nr = 1 \/ In nr nrs -> hears E s nr.
Proof.
  intros (S1 & S2 & S3) H Hi. pose proof (small_id nr H) as (I1 & I2 & I3 & _). pose proof (mask_clear nrs nr H Hi) as Mc.
  assert (N.land (4 * (nr - 1)) (N.lor MASK_CLASS (mask_of nrs)) = 0) as Z. { rewrite N.land_lor_distr_r. change MASK_CLASS with 1539. rewrite I1, Mc. reflexivity. }
  unfold hears, passes, sys_rx_id, async_rx_id, filt in *. rewrite S1. change ID_SYS with 2 in *. change BASE_DATA_RX with 1538 in *. rewrite I2. split; [exact Z|]. split.
  - intro Q. rewrite (S2 Q), I2. exact Z.
  - intro Q. rewrite (S3 Q), I3. exact Z.
Qed.
Lemma tab_nth_in s p n : (p < n)%nat -> (p < length (tab_of s))%nat -> In (m_nr (modat s p)) (map m_nr (firstn n (tab_of s))).
Proof.
  intros H L. apply in_map. unfold modat. rewrite <- (firstn_skipn n (tab_of s)) at 1. rewrite app_nth1 by (rewrite firstn_length; lia). apply nth_In. rewrite firstn_length. lia.
Qed.
Lemma hears_hw s s' nr : h_filt (n_hw s') = h_filt (n_hw s) -> hears E s nr -> hears E s' nr.
Proof. unfold hears, passes. intros ->. auto. Qed.

(** ** what a number change by message does *)
Lemma change_nr_ok p new s e s' : WF E s -> CtlI E s -> entry_of_nr s (m_nr (modat s p)) = Some p -> 1 <= new -> new < 8000 -> complete E s p -> change_nr E p new s = Ret (e, s') ->
  m_nr (modat s' p) <> m_nr (modat s p) -> e = ERR_OK -> renumbered s s' p new /\ m_nr (modat s' p) = new.
Proof.
  intros W I He N1 N2 Cp H Hq ->. pose proof (change_nr_numbers E _ _ _ _ _ He H) as Hn. pose proof (entry_named _ _ _ He) as Hm.
  destruct Hn as [Hn|[_ Hn]]; [rewrite Hn in Hq; congruence|]. split; [|rewrite Hn, Nat.eqb_refl; reflexivity].
  unfold change_nr in H. mbind H as v s0 H0. apply gets_inv in H0. destruct H0 as [-> ->]. mbind H as m s0 H0. apply gets_inv in H0. destruct H0 as [-> ->].
  assert (forall st, (change_nr_ids E (m_type (modat s p)) new (m_nr (modat s p)) >>> set_silent_awake E p st) s = Ret (ERR_OK, s') -> renumbered s s' p new) as X.
  { intros st Hx. apply andthen_inv in Hx. destruct Hx as (s1 & H1 & Hx). pose proof (CtlR_nr_ids E HE _ _ _ _ _ _ H1 I) as I1. eapply nr_ids_mo in H1; eauto. destruct H1 as [R1 R2 R3 R4].
    pose proof (ki_silent _ _ _ _ _ Hx) as [Kt Kx]. apply (still_silent E) in Hx. constructor.
    - eapply complete_still; eauto.
    - intros q Nq Cq. eapply complete_still; eauto.
    - intros o Ho. rewrite (same_f_at m_ntx _ _ p Kt) in Ho. unfold tx_ident. rewrite Kx. apply R3, Ho.
    - destruct Hx as (S1 & S2 & S3 & S4 & S5 & S6 & S7 & S8). unfold shared_filters, filt, nmod in *. rewrite S5, S3. replace (map m_nr (firstn (k_nmod (n_cfg s1)) (tab_of s'))) with (map m_nr (firstn (k_nmod (n_cfg s1)) (tab_of s1))); [exact R4|].
      rewrite <- !firstn_map. f_equal. apply (f_equal (map (fun x => snd (fst (fst x))))) in S1. rewrite !map_map in S1. symmetry. exact S1. }
  destruct (k_voter (n_cfg s)) as [v|]; [|eapply nr_ids_mo; eauto].
  destruct (v (m_type (modat s p)) new (m_nr (modat s p)) =? 0); [eauto|]. destruct (v (m_type (modat s p)) new (m_nr (modat s p)) =? 3); [eauto|]. apply ret_inv in H. destruct H; discriminate.
Qed.
Lemma err_change_nr p n : pres keep_err (change_nr E p n).
Proof. unfold change_nr. repeat (simple apply err_nr_ids || simple apply err_silent || pres_tac1). Qed.
Lemma number_effect pre mo id dlc data now s s' q : reached E pre s -> step E (OpFrame mo id dlc data now) s = Ret (tt, s') -> m_nr (modat s' q) <> m_nr (modat s q) -> 1 <= byte_at data 2 -> byte_at data 2 < 8000 -> complete E s q ->
  reported s s' \/
  (n_err s' = n_err s /\ complete E s' q /\ (forall p, p <> q -> complete E s p -> complete E s' p) /\
   (forall o, (o < m_ntx (modat s' q))%nat -> tx_ident s' q o = data_tx_id (byte_at data 2) o) /\
   (forall nr, 1 <= nr <= 128 -> nr = 1 \/ (exists p, (p < nmod s')%nat /\ m_nr (modat s' p) = nr) -> hears E s' nr)).
Proof.
  intros R H Hq N1 N2 Cq. pose proof (WF_reached E _ _ R) as W. pose proof (CtlI_reached E HE _ _ R) as I. pose proof (number_authorised E _ _ _ _ _ _ _ _ _ R H Hq) as (Hm & Hd & Hc & Hb & Hi & Hs & Ha & Hv & Ho). subst dlc.
  pose proof (wf_step E _ _ _ _ H W) as W'. assert (nmod s' <= MAXM E)%nat as Nm by (eapply nmod_le, (reached_app E); eauto). eapply (sys_step E) in H; eauto. apply N.eqb_neq in Hb. rewrite Hb in H. destruct (entry_of_nr s (id_nr id)) as [p|] eqn:En; [|exfalso; subst s'; apply Hq; reflexivity].
  destruct H as (e & s1 & H1 & H2). pose proof (report_cfg _ _ _ H2) as (Q1 & Q2 & Q3).
  unfold sys_cmd in H1. mbind H1 as n s0 H0. apply gets_inv in H0. destruct H0 as [-> ->].
  assert (cmd_of (b data 0) = CNumber) as Cn by (change (b data 0) with (byte_at data 0); rewrite Hc; reflexivity). rewrite Cn in H1. rewrite has_serial_spec, Hs in H1.
  pose proof (entry_lt _ _ _ En) as [Lp Qp]. rewrite <- Qp in En. assert (p = q) as ->.
  { destruct (Nat.eq_dec p q) as [|Np]; auto. exfalso. apply Hq. apply (change_nr_numbers E) in H1; [|exact En]. unfold modat, tab_of. rewrite Q1. fold (tab_of s1). fold (modat s1 q). destruct H1 as [H1|[_ H1]]; [apply H1|]. rewrite H1. apply Nat.eqb_neq in Np. rewrite Nat.eqb_sym, Np. reflexivity. }
  pose proof (err_change_nr _ _ _ _ _ H1) as Er. apply report_if_inv in H2. destruct (e =? ERR_OK) eqn:Ee.
  - subst s'. right. apply N.eqb_eq in Ee. change (b data 2) with (byte_at data 2) in H1. eapply change_nr_ok in H1; eauto. destruct H1 as [[R1 R2 R3 R4] R5]. split; [exact Er|]. split; [exact R1|]. split; [exact R2|].
    split.
    + intros o Ho'. rewrite R3 by exact Ho'. apply can_ident_data; auto. eapply Nat.lt_le_trans; [exact Ho'|apply (modat_ok E s1 q W')].
    + intros nr Hnr Hp. eapply mask_hears; eauto. destruct Hp as [->|(p & Lp' & <-)]; [auto|right]. apply tab_nth_in; auto. rewrite (tab_len E s1 W'). lia.
  - left. destruct H2 as [H2 (r & Q)]. exists e, r. split; [apply N.eqb_neq; exact Ee|]. unfold keep_err in Er. rewrite <- Er. unfold nr_main, modat, tab_of in *. rewrite Q1. exact Q.
Qed.

(** ** everything else keeps the objects *)
Lemma complete_report c s1 s' p : report_if c s1 = Ret (tt, s') -> complete E s1 p -> complete E s' p.
Proof. intros H C. apply report_cfg in H. destruct H as (H1 & H2 & _). unfold complete, registered, is_sync_mo, listens, is_ctl, rx_mo, ctl_mo, modat, tab_of, nmod in *. rewrite H1, H2. exact C. Qed.
Lemma complete_add d nr rxs txs pre s s' p : reached E pre s -> step E (OpAdd d nr rxs txs) s = Ret (tt, s') -> in_use (modat s p) = true -> complete E s p -> complete E s' p.
Proof.
  intros R H Up Cp. pose proof (WF_reached E _ _ R) as W. pose proof (CtlI_reached E HE _ _ R) as I. cbn [step] in H. unfold ignore in H. mbind H as e s0 H0. apply ret_inv in H. destruct H as [_ ->].
  destruct (next_pos s) as [i|] eqn:Np.
  - pose proof (next_pos_spec _ _ Np) as (_ & Ui & _). eapply add_mo in H0; eauto. destruct H0 as (s1 & c & Hr & Er & Ca & Oa & Ka & Na & _). eapply complete_report; [exact Hr|].
    assert (p <> i) as Ni by (intros ->; congruence). eapply complete_calm; eauto; [rewrite Oa; auto|apply Ka; apply Cp|destruct Cp; lia].
  - unfold add_module in H0. mbind H0 as tab sx Hx. apply gets_inv in Hx. destruct Hx as [-> ->]. rewrite first_unused_next, Np in H0. apply ret_inv in H0. destruct H0 as [_ ->]. exact Cp.
Qed.
Lemma complete_kept pre o s s' p : reached E pre s -> plain E o -> step E o s = Ret (tt, s') -> in_use (modat s p) = true -> complete E s p -> complete E s' p.
Proof.
  intros R Po H Up Cp. pose proof (CtlI_reached E HE _ _ R) as I.
  destruct o; try (eapply complete_add; eassumption); (eapply complete_still; [exact I| |exact Cp]; eapply (plain_still E); [exact Po|intros; discriminate|exact H]).
Qed.
Lemma no_object d nr rxs txs pre s s' : reached E pre s -> step E (OpAdd d nr rxs txs) s = Ret (tt, s') -> next_pos s <> None ->
  (forall mo, (mo < NMSG E)%nat -> taken s mo = true) -> (0 < m_nrx d)%nat \/ ASY E = true -> reported s s'.
Proof.
  intros R H Hn Ht Hd. destruct (next_pos s) as [i|] eqn:Np; [|congruence]. pose proof (WF_reached E _ _ R) as W. pose proof (CtlI_reached E HE _ _ R) as I. cbn [step] in H. unfold ignore in H. mbind H as e s0 H0. apply ret_inv in H. destruct H as [_ ->].
  pose proof (wf_add_module E _ _ _ _ _ _ _ H0 W) as W0. eapply add_mo in H0; eauto. destruct H0 as (s1 & c & Hr & Er & Ca & Oa & Ka & Na & Ad). pose proof (report_cfg _ _ _ Hr) as (Q1 & Q2 & Q3). apply report_if_inv in Hr.
  destruct (c =? ERR_OK) eqn:Ec.
  - exfalso. subst s0. apply N.eqb_eq in Ec. destruct (Ad Ec) as [A1 A2 A3 A4 A5]. pose proof W0 as (_ & _ & Hw & _).
    assert (forall mo, used s1 mo = true -> used s mo = true) as Lu.
    { intros mo Hu. destruct (Nat.lt_ge_cases mo (NMSG E)); [apply Ht; auto|]. unfold used in Hu. rewrite nth_overflow in Hu by (destruct Hw as (Hw & _); rewrite Hw; lia). discriminate. }
    destruct Hd as [Hd|Hd].
    + destruct (A3 0%nat Hd) as (O1 & O2 & _). apply Lu in O2. congruence.
    + destruct (A5 Hd) as (_ & O1 & O2 & _). apply Lu in O2. congruence.
  - destruct Hr as [Hr (r & Q)]. exists c, r. split; [apply N.eqb_neq; exact Ec|]. rewrite <- Er. unfold nr_main, modat, tab_of in *. rewrite Q1. exact Q.
Qed.
Lemma hears_added d nr rxs txs pre s s' i : reached E pre s -> step E (OpAdd d nr rxs txs) s = Ret (tt, s') -> next_pos s = Some i ->
  reported s s' \/ (n_err s' = n_err s /\ forall nr', 1 <= nr' <= 128 -> nr' = 1 \/ (exists p, (p <= i)%nat /\ m_nr (modat s' p) = nr') -> hears E s' nr').
Proof.
  intros R H Np. pose proof (WF_reached E _ _ R) as W. pose proof (CtlI_reached E HE _ _ R) as I. cbn [step] in H. unfold ignore in H. mbind H as e s0 H0. apply ret_inv in H. destruct H as [_ ->].
  pose proof (wf_add_module E _ _ _ _ _ _ _ H0 W) as W0. pose proof (next_pos_spec _ _ Np) as (Li & _). rewrite (tab_len E s W) in Li. eapply add_mo in H0; eauto. destruct H0 as (s1 & c & Hr & Er & Ca & Oa & Ka & Na & Ad). pose proof (report_cfg _ _ _ Hr) as (Q1 & Q2 & Q3). apply report_if_inv in Hr.
  destruct (c =? ERR_OK) eqn:Ec.
  - right. subst s0. split; [exact Er|]. apply N.eqb_eq in Ec. destruct (Ad Ec) as [A1 A2 A3 A4 A5]. intros nr' Hr' Hp. eapply mask_hears; eauto. destruct Hp as [->|(p & Lp & <-)]; [auto|right].
    apply tab_nth_in; [lia|]. rewrite (tab_len E s1 W0). lia.
  - left. destruct Hr as [Hr (r & Q)]. exists c, r. split; [apply N.eqb_neq; exact Ec|]. rewrite <- Er. unfold nr_main, modat, tab_of in *. rewrite Q1. exact Q.
Qed.

(** ** dispatch *)
Lemma owner_registered pre s mo p : reached E pre s -> (owner s mo = Some p <-> registered s mo p).
Proof.
  intro R. pose proof (HwI_reached E _ _ R) as I. split.
  - unfold owner. destruct (find _ _) as [[m q]|] eqn:F; [|discriminate]. intro Q. injection Q as <-. apply find_some in F. destruct F as [F1 F2]. cbn in F2. apply Nat.eqb_eq in F2. subst. exact F1.
  - intro Hr. destruct (owner s mo) as [q|] eqn:O.
    + f_equal. eapply registered_inj; eauto. unfold owner in O. destruct (find _ _) as [[m q']|] eqn:F; [|discriminate]. injection O as <-. apply find_some in F. destruct F as [F1 F2]. cbn in F2. apply Nat.eqb_eq in F2. subst. exact F1.
    + exfalso. unfold owner in O. destruct (find _ _) as [x|] eqn:F; [discriminate|]. apply (find_none _ _ F) in Hr. cbn in Hr. rewrite Nat.eqb_refl in Hr. discriminate.
Qed.
Lemma rx_nr_id nr i : 1 <= nr -> nr < 8000 -> (i < 4)%nat -> rx_nr (data_rx_id nr i) = nr /\ N.to_nat (data_rx_id nr i mod 4) = i.
Proof. intros. unfold rx_nr, data_rx_id, u16. split; lia. Qed.
Lemma dispatched pre s p i dlc data now : reached E pre s -> complete E s p -> (i < m_nrx (modat s p))%nat -> 1 <= m_nr (modat s p) -> m_nr (modat s p) < 8000 -> dlc = r_dlc_s (rxat (modat s p) i) ->
  accepted E s (OpFrame (rx_mo s p i) (data_rx_id (m_nr (modat s p)) i) dlc data now) p i = true.
Proof.
  intros R (_ & C & _) Hi N1 N2 ->. destruct (C i Hi) as (C1 & C2 & C3). eapply owner_registered in C1; eauto. unfold accepted. rewrite C1, C2, Nat.eqb_refl.
  assert (i < 4)%nat as L4. { pose proof (WF_reached E _ _ R) as W. destruct (modat_ok E s p W) as (M & _). unfold NOBJ in M. lia. }
  destruct (rx_nr_id _ _ N1 N2 L4) as [-> ->]. rewrite !N.eqb_refl, Nat.eqb_refl. destruct (CHK E); reflexivity.
Qed.
Lemma find_slot_owner l mo : find_slot l mo = option_map snd (find (fun e => (fst e =? mo)%nat) l).
Proof. induction l as [|[a x] l IH]; cbn [find_slot find fst]; [reflexivity|]. destruct (a =? mo)%nat; [reflexivity|exact IH]. Qed.
Lemma unregistered mo id dlc data now s : owner s mo = None -> mo <> MO_PROCESS -> sys_mo E mo = false -> step E (OpFrame mo id dlc data now) s = Ret (tt, s).
Proof.
  intros O N1 N2. cbn [step]. unfold frame_rx, bind, gets. apply Nat.eqb_neq in N1. rewrite N1. fold (sys_mo E mo). rewrite N2.
  destruct (is_sync_mo mo s); [|reflexivity]. unfold on_data, bind, gets. rewrite find_slot_owner. unfold owner in O. rewrite O. reflexivity.
Qed.
Lemma unknown_nr type new actual s : named s type actual = None -> step E (OpSetNr type new actual) s = Undef.
Proof. intro H. cbn [step]. unfold ignore, change_nr_ids, bind, gets. rewrite find_type_nr_named, H. reflexivity. Qed.

(** ** positions *)
Lemma base_base m : base (base m) = base m.
Proof. unfold base. cbn. rewrite !map_map. reflexivity. Qed.
Lemma plain_base o : plain E o -> (forall d nr rxs txs, o <> OpAdd d nr rxs txs) -> pres (same_f base) (step E o).
Proof.
  intros Po Ho. apply (kernel_step E); try typeclasses eauto; try (intros; same_leaf).
  destruct o; cbn [kernel plain] in *; auto; try (intro; same_leaf).
  - intro Hs. apply Po in Hs. destruct Hs as (H1 & H2 & _). unfold sys_kernel. change (b data 0) with (byte_at data 0). unfold cmd_of.
    repeat match goal with |- context [if byte_at data 0 =? ?k then _ else _] => destruct (N.eqb_spec (byte_at data 0) k); [cbv iota|] end; try exact I; try congruence.
    + split; [intro; apply same_mode; exact base_base|apply same_baud; exact base_base].
    + intro. apply same_sys_silent; exact base_base.
    + intro. apply same_sys_silent; exact base_base.
  - exfalso. eapply Ho; reflexivity.
  - unfold set_silent_awake_type_nr. repeat ((simple apply same_silent; exact base_base) || pres_tac1).
  - destruct Po.
  - unfold change_type_add. pres_tac; same_leaf.
  - apply same_mode; exact base_base.
  - apply same_baud; exact base_base.
  - destruct Po.
Qed.
Lemma addrs_rx_at l : forall a i, (i < length l)%nat -> r_addr (nth i (set_addrs_rx l a) rxo0) = nth i a (r_addr (nth i l rxo0)) /\ r_dlc (nth i (set_addrs_rx l a) rxo0) = r_dlc (nth i l rxo0) /\ r_conv (nth i (set_addrs_rx l a) rxo0) = r_conv (nth i l rxo0).
Proof.
  induction l as [|o l IH]; intros a i Hi; [inversion Hi|]. destruct a as [|x a]; cbn [set_addrs_rx]; [destruct i; repeat split; reflexivity|].
  destruct i as [|i]; cbn [nth]; [repeat split; reflexivity|]. apply IH. cbn in Hi. lia.
Qed.
Lemma addrs_tx_at l : forall a i, (i < length l)%nat -> t_addr (nth i (set_addrs_tx l a) txo0) = nth i a (t_addr (nth i l txo0)) /\ t_dlc (nth i (set_addrs_tx l a) txo0) = t_dlc (nth i l txo0) /\ t_conv (nth i (set_addrs_tx l a) txo0) = t_conv (nth i l txo0).
Proof.
  induction l as [|o l IH]; intros a i Hi; [inversion Hi|]. destruct a as [|x a]; cbn [set_addrs_tx]; [destruct i; repeat split; reflexivity|].
  destruct i as [|i]; cbn [nth]; [repeat split; reflexivity|]. apply IH. cbn in Hi. lia.
Qed.
Lemma base_rxat m i : base_rx (rxat m i) = nth i (m_rx (base m)) rxo0.
Proof. unfold rxat, base. cbn [m_rx]. change rxo0 with (base_rx rxo0) at 2. rewrite map_nth. reflexivity. Qed.
Lemma base_txat m i : base_tx (txat m i) = nth i (m_tx (base m)) txo0.
Proof. unfold txat, base. cbn [m_tx]. change txo0 with (base_tx txo0) at 2. rewrite map_nth. reflexivity. Qed.
Lemma base_configured m d nr rxs txs : desc_ok d = true -> base m = base (new_entry d nr rxs txs) -> configured_as m d rxs txs.
Proof.
  intros Hd H. apply desc_nonempty in Hd. destruct Hd as (_ & _ & _ & D4 & D5). unfold NOBJ in *. unfold configured_as.
  assert (forall i, base_rx (rxat m i) = base_rx (rxat (new_entry d nr rxs txs) i)) as Hr by (intro i; rewrite !base_rxat, H; reflexivity).
  assert (forall i, base_tx (txat m i) = base_tx (txat (new_entry d nr rxs txs) i)) as Ht by (intro i; rewrite !base_txat, H; reflexivity).
  pose proof (f_equal m_type H) as E1. pose proof (f_equal m_nrx H) as E2. pose proof (f_equal m_ntx H) as E3. cbn in E1, E2, E3.
  split; [exact E1|]. split; [exact E2|]. split; [exact E3|]. split; intros i Hi.
  - specialize (Hr i). unfold base_rx in Hr. injection Hr as -> -> ->. unfold rxat, new_entry. cbn [m_rx]. apply addrs_rx_at. lia.
  - specialize (Ht i). unfold base_tx in Ht. injection Ht as -> -> ->. unfold txat, new_entry. cbn [m_tx]. apply addrs_tx_at. lia.
Qed.
Definition AddI (L : list (modl * N * list nat * list nat)) (s : node) : Prop :=
  forall p, (p < MAXM E)%nat -> match nth_error L p with
  | Some (d, nr, rxs, txs) => in_use (modat s p) = true /\ desc_ok d = true /\ exists n, base (modat s p) = base (new_entry d n rxs txs)
  | None => in_use (modat s p) = false
  end.
Lemma in_use_base m m' : base m' = base m -> in_use m' = in_use m.
Proof. intro H. apply (f_equal m_type) in H. cbn in H. unfold in_use. rewrite H. reflexivity. Qed.
Lemma AddI_same L s s' : same_f base s s' -> AddI L s -> AddI L s'.
Proof.
  intros S A p Lp. specialize (A p Lp). pose proof (same_f_at base _ _ p S) as Q. rewrite (in_use_base _ _ Q). destruct (nth_error L p) as [[[[d nr] rxs] txs]|]; [|exact A]. rewrite Q. exact A.
Qed.
Lemma AddI_add L d nr rxs txs s s' : WF E s -> AddI L s -> step E (OpAdd d nr rxs txs) s = Ret (tt, s') -> AddI (L ++ [(d, nr, rxs, txs)]) s'.
Proof.
  intros W A H. cbn [step] in H. unfold ignore in H. mbind H as e s0 H0. apply ret_inv in H. destruct H as [_ ->]. apply add_module_inv in H0. rewrite first_unused_next in H0. pose proof (tab_len E s W) as Lt.
  destruct (next_pos s) as [i|] eqn:Np.
  - apply next_pos_spec in Np. destruct Np as (Li & Ui & Bi). destruct H0 as (Hd & _ & Hb & Ho & _). rewrite Lt in Li.
    assert (i = length L) as ->.
    { pose proof (A i Li) as Ai. destruct (nth_error L i) as [[[[? ?] ?] ?]|] eqn:Ni; [destruct Ai; congruence|]. apply nth_error_None in Ni. destruct (Nat.lt_ge_cases (length L) i) as [Q|Q]; [|lia].
      pose proof (Bi _ Q) as Bi'. specialize (A (length L) ltac:(lia)). assert (nth_error L (length L) = None) as Z by (apply nth_error_None; lia). rewrite Z in A. congruence. }
    intros p Lp. destruct (Nat.eq_dec p (length L)) as [->|Np].
    + rewrite nth_error_app2, Nat.sub_diag by lia. cbn [nth_error]. rewrite (in_use_base _ _ Hb). split; [|split; [exact Hd|eauto]]. apply desc_nonempty in Hd. unfold in_use. cbn. apply negb_true_iff, N.eqb_neq. apply Hd.
    + rewrite Ho by exact Np. specialize (A p Lp). destruct (Nat.lt_ge_cases p (length L)) as [Q|Q].
      * rewrite nth_error_app1 by exact Q. exact A.
      * assert (nth_error (L ++ [(d, nr, rxs, txs)]) p = None) as -> by (apply nth_error_None; rewrite app_length; cbn; lia). apply nth_error_None in Q. rewrite Q in A. exact A.
  - destruct H0 as [_ ->]. intros p Lp. pose proof (next_pos_none s p Np) as Q. rewrite Lt in Q. specialize (Q Lp). specialize (A p Lp). destruct (nth_error L p) as [x|] eqn:Nx; [|congruence].
    rewrite nth_error_app1 by (apply nth_error_Some; congruence). rewrite Nx. exact A.
Qed.
Lemma adds_app a c : adds (a ++ c) = adds a ++ adds c.
Proof. apply flat_map_app. Qed.
Lemma AddI_run ops : forall L s s', WF E s -> AddI L s -> Forall (plain E) ops -> run E ops s = Ret (tt, s') -> AddI (L ++ adds ops) s'.
Proof.
  induction ops as [|o ops IH]; intros L s s' W A F R; cbn [run] in R.
  - apply ret_inv in R. destruct R as [_ ->]. cbn. rewrite app_nil_r. exact A.
  - mbind R as u s1 H1. destruct u. inversion F as [|? ? F1 F2]; subst. pose proof (wf_step E _ _ _ _ H1 W) as W1. change (adds (o :: ops)) with (adds ([o] ++ ops)). rewrite adds_app, app_assoc.
    apply (IH _ s1); auto. destruct o; try (cbn [adds flat_map app]; rewrite app_nil_r; eapply AddI_same; [|exact A]; eapply plain_base; [exact F1|intros; discriminate|exact H1]).
    exact (AddI_add L _ _ _ _ s s1 W A H1).
Qed.

Lemma booted_unused s p : booted E s -> in_use (modat s p) = false.
Proof.
  intros (mem & st & orc & rate & H). unfold can_init in H. apply andthen_inv in H. destruct H as (s1 & H1 & H).
  assert (same_f ident s1 s) as Sf.
  { revert H. assert (forall m, pres (same_f ident) m -> forall (e:N) s1 s, m s1 = Ret (e, s) -> same_f ident s1 s) as K by (intros; eauto).
    apply K. unfold define_obj, hw_define, msg_objs_init, sys_init, sync_init. pres_tac; same_leaf. }
  apply (same_f_at ident _ _ p) in Sf. injection Sf as Sf _. unfold in_use. rewrite Sf. unfold config_init in H1. minv_all.
  unfold modat, tab_of. cbn. rewrite map_map. destruct (Nat.lt_ge_cases p (MAXM E)) as [L|L].
  - rewrite nth_map_seq by exact L. reflexivity.
  - rewrite nth_overflow by (rewrite map_length, seq_length; exact L). reflexivity.
Qed.
Lemma AddI_reached ops s : Forall (plain E) ops -> reached E ops s -> AddI (adds ops) s.
Proof.
  intros F (s0 & B & R). apply (AddI_run ops [] s0 s); auto.
  - apply (WF_reached E [] s0). exists s0. split; [exact B|reflexivity].
  - intros p _. destruct p; apply booted_unused, B.
Qed.
Lemma AddI_next L s : WF E s -> AddI L s -> next_pos s = if (length L <? MAXM E)%nat then Some (length L) else None.
Proof.
  intros W A. pose proof (tab_len E s W) as Lt. destruct (Nat.ltb_spec (length L) (MAXM E)) as [Q|Q].
  - unfold next_pos. apply find_first; [lia| |].
    + specialize (A _ Q). assert (nth_error L (length L) = None) as Z by (apply nth_error_None; lia). rewrite Z in A. rewrite A. reflexivity.
    + intros j Hj. specialize (A j ltac:(lia)). destruct (nth_error L j) as [[[[? ?] ?] ?]|] eqn:N; [destruct A as [-> _]; reflexivity|]. apply nth_error_None in N. lia.
  - destruct (next_pos s) as [i|] eqn:Np; [|reflexivity]. apply next_pos_spec in Np. destruct Np as (Li & Ui & _). rewrite Lt in Li. specialize (A i Li). destruct (nth_error L i) as [[[[? ?] ?] ?]|] eqn:N; [destruct A; congruence|].
    apply nth_error_None in N. lia.
Qed.
Lemma positions ops s : Forall (plain E) ops -> reached E ops s ->
  (forall p d nr rxs txs, (p < MAXM E)%nat -> nth_error (adds ops) p = Some (d, nr, rxs, txs) -> in_use (modat s p) = true /\ configured_as (modat s p) d rxs txs) /\
  (forall p, (length (adds ops) <= p)%nat -> (p < MAXM E)%nat -> in_use (modat s p) = false).
Proof.
  intros F R. pose proof (AddI_reached _ _ F R) as A. split.
  - intros p d nr rxs txs Lp N. specialize (A p Lp). rewrite N in A. destruct A as (U & D & n & B). split; [exact U|]. eapply base_configured; eauto.
  - intros p Hp Lp. specialize (A p Lp). apply nth_error_None in Hp. rewrite Hp in A. exact A.
Qed.
Lemma refused ops s d nr rxs txs e s' : Forall (plain E) ops -> reached E ops s -> add_module E d nr rxs txs s = Ret (e, s') ->
  (length (adds ops) < MAXM E)%nat /\ e <> E_MAX_MODULES \/ (MAXM E <= length (adds ops))%nat /\ e = E_MAX_MODULES /\ s' = s.
Proof.
  intros F R H. pose proof (AddI_reached _ _ F R) as A. pose proof (WF_reached E _ _ R) as W. apply AddI_next in A; [|exact W]. apply add_module_inv in H. rewrite first_unused_next, A in H.
  destruct (Nat.ltb_spec (length (adds ops)) (MAXM E)); [left|right; tauto]. split; [assumption|]. destruct H as (_ & -> & _). destruct (existsb _ _); discriminate.
Qed.

(** ** numbers of additions *)
Lemma existsb_map A B (g : A -> B) (f : B -> bool) l : existsb f (map g l) = existsb (fun x => f (g x)) l.
Proof. induction l as [|x l IH]; cbn; [reflexivity|rewrite IH; reflexivity]. Qed.
Lemma existsb_firstn s i nr : (i <= length (tab_of s))%nat -> existsb (fun m => m_nr m =? nr) (firstn i (tab_of s)) = existsb (fun q => m_nr (modat s q) =? nr) (seq 0 i).
Proof.
  intro L. rewrite <- (existsb_map _ _ (fun q => modat s q) (fun m => m_nr m =? nr)). f_equal. unfold modat. clear - L. revert i L. induction (tab_of s) as [|m t IH]; intros i L; cbn in L; [assert (i = 0)%nat as -> by lia; reflexivity|].
  destruct i as [|i]; [reflexivity|]. cbn [firstn seq map nth]. f_equal. rewrite <- seq_shift, map_map. apply IH. lia.
Qed.
Lemma given s d nr rxs txs e s' i : WF E s -> next_pos s = Some i -> add_module E d nr rxs txs s = Ret (e, s') ->
  m_nr (modat s' i) = given_nr s i nr /\ (forall q, q <> i -> m_nr (modat s' q) = m_nr (modat s q)) /\
  (e = E_REDECLARED_NR /\ (exists q, (q < i)%nat /\ m_nr (modat s q) = nr) \/ e = ERR_OK /\ forall q, (q < i)%nat -> m_nr (modat s q) <> nr).
Proof.
  intros W Np H. apply add_module_inv in H. rewrite first_unused_next, Np in H. destruct H as (_ & He & Hb & Ho & _). apply next_pos_spec in Np. destruct Np as (Li & _ & _).
  split; [|split].
  - apply (f_equal m_nr) in Hb. cbn in Hb. rewrite Hb. apply given_final. lia.
  - intros q Hq. rewrite Ho by exact Hq. reflexivity.
  - rewrite existsb_firstn in He by lia. destruct (existsb _ _) eqn:Ex; [left|right]; split; auto.
    + apply existsb_exists in Ex. destruct Ex as (q & Q1 & Q2). apply in_seq in Q1. apply N.eqb_eq in Q2. exists q. split; [lia|exact Q2].
    + intros q Hq Q. assert (existsb (fun q => m_nr (modat s q) =? nr) (seq 0 i) = true) as T; [|congruence]. apply existsb_exists. exists q. rewrite Q, N.eqb_refl. split; [apply in_seq; lia|reflexivity].
Qed.

(** ** numbers after changes *)
Lemma NrI_change s s' new : WF E s -> NrI E s -> same_types s s' -> fresh_nr s new ->
  (forall p, m_nr (modat s' p) = m_nr (modat s p) \/ (m_nr (modat s' p) = new /\ forall q, q <> p -> m_nr (modat s' q) = m_nr (modat s q))) -> NrI E s'.
Proof.
  intros W [I1 I2 I3] [T _] [F1 F2] H. rewrite (tab_len E s W) in F2. assert (forall p, in_use (modat s' p) = in_use (modat s p)) as U.
  { intro p. unfold in_use. assert (m_type (modat s' p) = m_type (modat s p)) as ->; [|reflexivity]. unfold modat. rewrite <- !(map_nth m_type), T. reflexivity. }
  split.
  - intros p Lp. rewrite U. intro Up. destruct (H p) as [->|[-> _]]; [auto|right; exact F1].
  - intros p q Lp Lq. rewrite !U. intros Up Uq. destruct (H p) as [Ep|[-> Ho]].
    + destruct (H q) as [->|[-> Ho]]; rewrite Ep; [auto|]. apply F2; auto. lia.
    + rewrite (Ho q) by lia. intro Q. symmetry in Q. revert Q. apply F2; auto.
  - intros p q Lp Lq. rewrite !U. eauto.
Qed.
Lemma types_nr_frame mo id dlc data now : sys_mo E mo = true -> byte_at data 0 = 32 -> pres same_types (step E (OpFrame mo id dlc data now)).
Proof.
  intros Hm Hc. apply (kernel_step E); try typeclasses eauto; try (intros; split; reflexivity). cbn [kernel]. intros _. unfold sys_kernel. change (b data 0) with (byte_at data 0). rewrite Hc. change (cmd_of 32) with CNumber. cbv iota. intro. simple apply types_change_nr.
Qed.
Lemma NrI_request pre o s s' new : reached E pre s -> NrI E s -> nr_request E s o = Some new -> fresh_nr s new -> step E o s = Ret (tt, s') -> NrI E s'.
Proof.
  intros R I Q F H. pose proof (WF_reached E _ _ R) as W. destruct o; try discriminate; cbn [nr_request] in Q.
  - destruct (sys_mo E mo && (dlc =? 8) && (byte_at data 0 =? 32)) eqn:C; [|discriminate]. injection Q as <-. apply andb_prop in C. destruct C as [C C3]. apply andb_prop in C. destruct C as [C1 C2]. apply N.eqb_eq in C3.
    eapply NrI_change; eauto; [eapply types_nr_frame; eauto|]. intro p. destruct (N.eq_dec (m_nr (modat s' p)) (m_nr (modat s p))) as [Q|Q]; [left; exact Q|right].
    eapply number_authorised in H; eauto. tauto.
  - injection Q as <-. cbn [step] in H. unfold ignore in H. mbind H as e s0 H0. apply ret_inv in H. destruct H as [_ ->].
    eapply NrI_change; eauto; [eapply types_change_nr_ids; eauto|].
    match type of H0 with change_nr_ids _ ?t ?n ?a _ = _ => destruct (named s t a) as [q|] eqn:Nm end.
    + intro p. pose proof (nr_ids_numbers _ _ _ _ _ _ _ _ Nm H0) as X. destruct (Nat.eqb_spec p q) as [->|Np]; [|left; rewrite X; destruct (Nat.eqb_spec p q); congruence].
      right. split; [rewrite X, Nat.eqb_refl; reflexivity|]. intros r Nr. rewrite X. destruct (Nat.eqb_spec r q); congruence.
    + unfold change_nr_ids, bind, gets in H0. rewrite find_type_nr_named, Nm in H0. discriminate.
Qed.
Lemma NrI_careful ops : forall pre s s', reached E pre s -> NrI E s -> run_with E (careful E) ops s s' -> NrI E s'.
Proof.
  induction ops as [|o ops IH]; intros pre s s' R I H; cbn [run_with] in H; [subst; exact I|]. destruct H as (C & s1 & H1 & H). eapply (IH (pre ++ [o]) s1); eauto; [eapply reached_step; eauto|].
  destruct C as [C|(new & Q & F)]; [eapply NrI_step; eauto; eapply WF_reached; eauto|eapply NrI_request; eauto].
Qed.

Lemma set_nr_effect pre type new actual s s' p : reached E pre s -> named s type actual = Some p -> 1 <= new -> new < 8000 -> complete E s p -> change_nr_ids E type new actual s = Ret (ERR_OK, s') ->
  complete E s' p /\ m_nr (modat s' p) = new /\ (forall q, q <> p -> m_nr (modat s' q) = m_nr (modat s q)) /\ (forall q, q <> p -> complete E s q -> complete E s' q) /\
  (forall o, (o < m_ntx (modat s' p))%nat -> tx_ident s' p o = data_tx_id new o) /\
  (forall nr, 1 <= nr <= 128 -> nr = 1 \/ (exists q, (q < nmod s')%nat /\ m_nr (modat s' q) = nr) -> hears E s' nr).
Proof.
  intros R Hn N1 N2 Cp H. pose proof (WF_reached E _ _ R) as W. pose proof (CtlI_reached E HE _ _ R) as I.
  assert (step E (OpSetNr type new actual) s = Ret (tt, s')) as Hs by (cbn [step]; unfold ignore, bind; rewrite H; reflexivity).
  pose proof (wf_step E _ _ _ _ Hs W) as W'. assert (nmod s' <= MAXM E)%nat as Nm by (eapply nmod_le, reached_step; eauto).
  pose proof (nr_ids_numbers E _ _ _ _ _ _ _ Hn H) as Nr. pose proof (nr_ids_mo _ _ _ _ _ _ W I Hn N1 N2 Cp H) as [A1 A2 A3 A4].
  split; [exact A1|]. split; [rewrite Nr, Nat.eqb_refl; reflexivity|]. split; [intros q Nq; rewrite Nr; destruct (Nat.eqb_spec q p); congruence|]. split; [exact A2|]. split.
  - intros o Ho. rewrite A3 by exact Ho. apply can_ident_data; auto. pose proof (modat_ok E s' p W') as (_ & M & _). lia.
  - intros nr Hr Hp. eapply mask_hears; eauto. destruct Hp as [->|(q & Lq & <-)]; [auto|right]. apply tab_nth_in; [lia|]. rewrite (tab_len E s' W'). lia.
Qed.
Lemma hears_kept o s s' nr : plain E o -> (forall d nr rxs txs, o <> OpAdd d nr rxs txs) -> step E o s = Ret (tt, s') -> hears E s nr -> hears E s' nr.
Proof. intros Po Ho H. apply hears_hw. eapply (plain_still E) in H; eauto. apply H. Qed.
Lemma no_sharing pre s p q : reached E pre s -> complete E s p -> complete E s q ->
  (forall i j, (i < m_nrx (modat s p))%nat -> (j < m_nrx (modat s q))%nat -> rx_mo s p i = rx_mo s q j -> p = q /\ i = j) /\
  (ASY E = true -> (forall i, (i < m_nrx (modat s p))%nat -> rx_mo s p i <> ctl_mo s q) /\
     (1 <= m_nr (modat s p) -> 1 <= m_nr (modat s q) -> m_nr (modat s p) <> m_nr (modat s q) -> ctl_mo s p <> ctl_mo s q)) /\
  (forall i, (i < m_nrx (modat s p))%nat -> ~ In (rx_mo s p i) (fixed_mo E)) /\ (ASY E = true -> ~ In (ctl_mo s p) (fixed_mo E)).
Proof.
  intros R Cp Cq. pose proof (HwI_reached E _ _ R) as I. pose proof (CtlI_reached E HE _ _ R) as C. split; [intros; eapply rx_distinct; eauto|]. split; [|apply not_fixed; auto].
  intro As. split; [intros; eapply rx_ctl; eauto|]. intros. apply ctl_distinct; auto.
Qed.
Lemma different ops s p q : Forall (plain E) ops -> reached E ops s -> (p < q)%nat -> (q < MAXM E)%nat -> in_use (modat s p) = true -> in_use (modat s q) = true -> m_nr (modat s p) <> m_nr (modat s q).
Proof. intros F R. eapply nr_diff, NrI_reached; eauto. Qed.
Lemma different_careful pre ops s s' p q : Forall (plain E) pre -> reached E pre s -> run_with E (careful E) ops s s' ->
  (p < q)%nat -> (q < MAXM E)%nat -> in_use (modat s' p) = true -> in_use (modat s' q) = true -> m_nr (modat s' p) <> m_nr (modat s' q).
Proof. intros F R Hr. eapply nr_diff, NrI_careful; eauto. eapply NrI_reached; eauto. Qed.
Lemma given_reached pre s d nr rxs txs e s' i : reached E pre s -> next_pos s = Some i -> add_module E d nr rxs txs s = Ret (e, s') ->
  m_nr (modat s' i) = given_nr s i nr /\ (forall q, q <> i -> m_nr (modat s' q) = m_nr (modat s q)) /\
  (e = E_REDECLARED_NR /\ (exists q, (q < i)%nat /\ m_nr (modat s q) = nr) \/ e = ERR_OK /\ forall q, (q < i)%nat -> m_nr (modat s q) <> nr).
Proof. intro R. apply given. eapply WF_reached; eauto. Qed.
End Cfg.
