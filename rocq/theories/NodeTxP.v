(** Who transmits (C07), the round trip of silent and awake (C08), what changes the silent state (C20). *)
From Verif Require Import Words WordsFacts Bits ErrModel NodeModel NodeLib NodeInv NodeSpec NodeHw NodeCnt NodeSync NodeImage NodeSilent NodePres NodeSysP NodeTx NodeSend NodeNum NodeRx.

(** ** senders *)
(** nothing is sent / system frames are sent under numbers whose first entry is awake *)
Definition quiet (s s' : node) : Prop := exists new, n_log s' = n_log s ++ new /\ sent new = [].
#[local] Instance pre_quiet : Pre quiet.
Proof.
  split.
  - intro s. exists []. rewrite app_nil_r. auto.
  - intros a b c (n1 & L1 & S1) (n2 & L2 & S2). exists (n1 ++ n2). rewrite L2, L1, sent_app, S1, S2, app_assoc. auto.
Qed.
Definition spoken (s : node) (f : N * N * list byte) : Prop := exists nr, speaks s nr = true /\ fst (fst f) = can_ident BASE_SYS_TX nr 0.
Definition spoke (s s' : node) : Prop := n_cfg s' = n_cfg s /\ exists new, n_log s' = n_log s ++ new /\ forall f, In f (sent new) -> spoken s f.
Lemma speaks_cfg s s' nr : n_cfg s' = n_cfg s -> speaks s' nr = speaks s nr.
Proof. intro C. unfold speaks, entry_of_nr, awake, silat, modat, tab_of. rewrite C. reflexivity. Qed.
#[local] Instance pre_spoke : Pre spoke.
Proof.
  split.
  - intro s. split; auto. exists []. rewrite app_nil_r. split; auto. intros f [].
  - intros a b c (C1 & n1 & L1 & S1) (C2 & n2 & L2 & S2). split; [congruence|]. exists (n1 ++ n2). rewrite L2, L1, sent_app, app_assoc. split; auto.
    intros f Hf. apply in_app_or in Hf. destruct Hf as [Hf|Hf]; [auto|]. apply S2 in Hf. destruct Hf as (nr & Hs & Hi). exists nr. rewrite (speaks_cfg a b nr C1) in Hs. auto.
Qed.
Ltac quiet_leaf := first [exists []; cbn; rewrite app_nil_r; split; reflexivity | eexists; split; reflexivity].
Ltac spoke_leaf := split; [reflexivity|]; first [exists []; cbn; rewrite app_nil_r; split; [reflexivity|intros ? []] | eexists; split; [reflexivity|intros ? []]].

Section TxP.
Variable E : env.
Hypothesis HE : env_ok E.

Lemma spoke_sys_tx nr data : pres spoke (sys_tx nr data).
Proof.
  intros s u s' H. unfold sys_tx in H. mbind H as tab s0 H0. apply gets_inv in H0. destruct H0 as [-> ->]. rewrite find_nr_of in H.
  destruct (entry_of_nr s nr) as [p|] eqn:En; [|apply ret_inv in H; destruct H as [_ ->]; apply pre_refl].
  mbind H as st s0 H0. apply gets_inv in H0. destruct H0 as [-> ->]. destruct (silat s p =? AWAKE) eqn:Aw; [|apply ret_inv in H; destruct H as [_ ->]; apply pre_refl].
  mbind H as e s1 H1. apply ret_inv in H. destruct H as [_ ->]. apply send_msg_inv in H1. destruct H1 as (O & _ & _ & ok & L & _).
  split; [apply O|]. eexists. split; [exact L|]. intros f [<-|[]]. exists nr. split; [|reflexivity]. unfold speaks. rewrite En. exact Aw.
Qed.
Lemma spoke_send_error x : pres spoke (send_error x).
Proof. unfold send_error. repeat (simple apply spoke_sys_tx || pres_tac1); spoke_leaf. Qed.
Lemma spoke_drain n : pres spoke (drain_errors n).
Proof. induction n as [|n IH]; cbn [drain_errors]; unfold send_one_error; repeat (simple apply IH || simple apply spoke_send_error || pres_tac1); spoke_leaf. Qed.

Lemma quiet_define_obj a b c d e f g : pres quiet (define_obj E a b c d e f g).
Proof. unfold define_obj, hw_define. pres_tac; quiet_leaf. Qed.
Lemma quiet_silent p st : pres quiet (set_silent_awake E p st).
Proof.
  unfold set_silent_awake, sync_off, sync_on, tx_data_on, tx_data_off.
  repeat ((simple apply pres_call_rx; [typeclasses eauto| intros; quiet_leaf]) || pres_tac1); quiet_leaf.
Qed.
Lemma quiet_part t on : pres quiet (set_active_critical t on).
Proof.
  unfold set_active_critical, sync_off, sync_on, tx_data_on, tx_data_off.
  repeat ((simple apply pres_call_rx; [typeclasses eauto| intros; quiet_leaf]) || pres_tac1); quiet_leaf.
Qed.
Lemma quiet_shared a b c d : pres quiet (define_shared E a b c d).
Proof. unfold define_shared, get_async_ctrl_obj, next_free. repeat (simple apply quiet_define_obj || simple apply quiet_silent || pres_tac1); quiet_leaf. Qed.
Lemma quiet_cnfg a b c : pres quiet (tx_data_cnfg E a b c).
Proof. unfold tx_data_cnfg. pres_tac; quiet_leaf. Qed.
Lemma quiet_nr_ids t n a : pres quiet (change_nr_ids E t n a).
Proof. unfold change_nr_ids. repeat (simple apply quiet_define_obj || simple apply quiet_shared || simple apply quiet_cnfg || pres_tac1); quiet_leaf. Qed.
Lemma quiet_set_module i d nr rxs txs : pres quiet (set_module E i d nr rxs txs).
Proof. unfold set_module, rx_slot, rx_data_cnfg, next_free. repeat (simple apply quiet_define_obj || simple apply quiet_shared || simple apply quiet_cnfg || pres_tac1); quiet_leaf. Qed.
Lemma quiet_baud r : pres quiet (set_baudrate r).
Proof.
  unfold set_baudrate. refine (pres_bind _ _ _ _ _); [pres_tac|intro tab]. generalize ERR_OK.
  induction tab as [|x tab IH]; intro e; cbn [set_baudrate_loop]; [pres_tac|].
  destruct (r =? x); [|apply IH]. unfold hw_set_baudrate. repeat (simple apply IH || pres_tac1); quiet_leaf.
Qed.
Lemma quiet_mode m : pres quiet (set_node_mode m).
Proof. unfold set_node_mode. pres_tac; quiet_leaf. Qed.
Definition either {A} (m : M A) : Prop := pres quiet m \/ pres spoke m.
Lemma either_sys_cmd bc p nr src : either (sys_cmd E bc p nr src).
Proof.
  unfold either, sys_cmd. destruct (cmd_of (b src 0)).
  all: try (left; unfold sys_silent_awake, change_nr, change_type, set_cycle_time;
    repeat (simple apply quiet_mode || simple apply quiet_baud || simple apply quiet_nr_ids || simple apply quiet_silent || simple apply quiet_cnfg || pres_tac1); quiet_leaf; fail).
  all: right; unfold status_ackn, version_ackn; repeat (simple apply spoke_sys_tx || simple apply spoke_drain || pres_tac1); spoke_leaf.
Qed.

(** every frame sent in a step belongs to an enabled object or is a system frame of an awake entry *)
Definition lawful (s : node) (f : N * N * list byte) : Prop :=
  (exists p o, In (p, o) (enabled s) /\ fst (fst f) = data_tx_id (m_nr (modat s p)) o) \/
  (exists nr, speaks s nr = true /\ fst (fst f) = can_ident BASE_SYS_TX nr 0).
Lemma cyc_frames_in s f l : forall can, In f (cyc_frames s l can) -> exists p o, In (p, o) l /\ fst (fst f) = data_tx_id (m_nr (modat s p)) o.
Proof.
  induction l as [|[p o] l IH]; intros can H; cbn [cyc_frames] in H; [destruct H|]. destruct (convert s p o can) as [[can' e]|]; [|destruct H].
  apply in_app_or in H. destruct H as [H|H].
  - destruct (e =? ERR_OK); [|destruct H]. destruct H as [<-|[]]. exists p, o. split; [left; reflexivity|reflexivity].
  - apply IH in H. destruct H as (p' & o' & H & Q). exists p', o'. split; [right; exact H|exact Q].
Qed.
Lemma quiet_on_data mo id dlc data : pres quiet (on_data E mo id dlc data).
Proof. unfold on_data, rx_data_main. repeat ((simple apply pres_call_rx; [typeclasses eauto| intros; quiet_leaf]) || pres_tac1); quiet_leaf. Qed.
Lemma quiet_report e : pres quiet (report_if e).
Proof. apply pres_report_if; [typeclasses eauto|]. intros; quiet_leaf. Qed.
Lemma quiet_lawful s s' new : added s s' new -> quiet s s' -> forall f, In f (sent new) -> lawful s f.
Proof. intros A (n & L & S) f Hf. unfold added in A. rewrite A in L. apply app_inv_head in L. subst n. rewrite S in Hf. destruct Hf. Qed.
Lemma sent_step pre o s s' new : TxI E s -> reached E pre s -> step E o s = Ret (tt, s') -> added s s' new ->
  forall f, In f (sent new) -> lawful s f.
Proof.
  intros I R H A. destruct o; try (apply (quiet_lawful _ _ _ A); revert H; cbn [step]; unfold ignore, set_silent_awake_type_nr, change_type_add, set_image_cb, report, trigger_period, get_period, set_cycle_time;
    match goal with |- ?m s = _ -> _ => enough (pres quiet m) as P by (intro H; exact (P _ _ _ H)) end;
    repeat (simple apply quiet_mode || simple apply quiet_baud || simple apply quiet_nr_ids || simple apply quiet_silent || simple apply quiet_part || pres_tac1); quiet_leaf; fail).
  - destruct (sys_mo E mo) eqn:Hm.
    + apply step_sys in H; auto; [|eapply HwI_reached; eauto]. rewrite on_sys_eq in H. mbind H as e s1 H1.
      assert (quiet s s1 \/ spoke s s1) as Q.
      { unfold sys_msg_rx in H1. destruct (negb (dlc =? 8)); [apply ret_inv in H1; destruct H1 as [_ ->]; left; apply pre_refl|].
        destruct (id_nr id =? NR_BROADCAST).
        - mbind H1 as n s0 H0. apply gets_inv in H0. destruct H0 as [-> ->]. destruct (nmod s =? 0)%nat; [apply ret_inv in H1; destruct H1 as [_ ->]; left; apply pre_refl|].
          destruct (either_sys_cmd true 0 (id_nr id) data) as [P|P]; apply P in H1; auto.
        - mbind H1 as n s0 H0. apply gets_inv in H0. destruct H0 as [-> ->]. destruct (find_nr (tab_of s) (id_nr id) 0) as [pos|]; [|apply ret_inv in H1; destruct H1 as [_ ->]; left; apply pre_refl].
          destruct (either_sys_cmd false pos (id_nr id) data) as [P|P]; apply P in H1; auto. }
      apply quiet_report in H. destruct Q as [Q|Q].
      * apply (quiet_lawful _ _ _ A). eapply pre_trans; eauto.
      * destruct Q as (C & n1 & L1 & S1). destruct H as (n2 & L2 & S2). unfold added in A. rewrite A, L1, <- app_assoc in L2. apply app_inv_head in L2. subst new.
        intros f Hf. rewrite sent_app, S2, app_nil_r in Hf. apply S1 in Hf. right. exact Hf.
    + destruct (Nat.eq_dec mo MO_PROCESS) as [->|Np].
      * destruct (request_frames_I E HE _ _ _ _ _ _ _ I R H) as (n & st & A' & _ & S). unfold added in *. rewrite A in A'. apply app_inv_head in A'. subst n.
        intros f Hf. rewrite S in Hf. apply in_app_or in Hf. destruct Hf as [Hf|Hf]; [left; eapply cyc_frames_in; eauto|].
        destruct (pending_errors st) as [|e l]; [destruct Hf|]. unfold error_tx in Hf. destruct (speaks s (error_nr s e)) eqn:Sp; [|destruct Hf]. destruct Hf as [<-|[]].
        right. exists (error_nr s e). split; [exact Sp|]. cbn [fst].
        assert (1 <= error_nr s e <= 255).
        { unfold error_nr. destruct ((2 <=? e_module e) && (e_module e <=? 124)) eqn:Q.
          - apply andb_prop in Q. destruct Q as [Q1 Q2]. apply N.leb_le in Q1, Q2. lia.
          - destruct HE as ((M1 & _) & _). pose proof (ti_nr E s I 0%nat ltac:(lia)). lia. }
        symmetry. apply can_ident_sys; lia.
      * apply (quiet_lawful _ _ _ A). cbn [step] in H. unfold frame_rx in H. apply Nat.eqb_neq in Np. rewrite Np in H. fold (sys_mo E mo) in H. rewrite Hm in H.
        revert H. match goal with |- ?m s = _ -> _ => enough (pres quiet m) as P by (intro H; exact (P _ _ _ H)) end.
        repeat (simple apply quiet_on_data || pres_tac1).
  - apply (quiet_lawful _ _ _ A). cbn [step] in H. revert H. match goal with |- ?m s = _ -> _ => enough (pres quiet m) as P by (intro H; exact (P _ _ _ H)) end.
    unfold ignore, add_module. repeat (simple apply quiet_set_module || simple apply quiet_report || pres_tac1).
  - apply (quiet_lawful _ _ _ A). cbn [step] in H. unfold report in H. destruct (syserr_send (n_err s) err prio nr) as [[st r]|]; [|discriminate]. injection H as <-. quiet_leaf.
Qed.
Lemma entry_first s nr q : entry_of_nr s nr = Some q -> (q < length (tab_of s))%nat /\ m_nr (modat s q) = nr /\ forall p, (p < q)%nat -> m_nr (modat s p) <> nr.
Proof.
  intro H. destruct (entry_lt _ _ _ H) as [L Q]. repeat split; auto. intros p Hp X. unfold entry_of_nr in H. 
  replace (length (tab_of s)) with (p + S (length (tab_of s) - S p))%nat in H by lia. rewrite seq_app in H. cbn [seq plus] in H.
  assert (forall l t, (forall x, In x l -> (x < q)%nat) -> find (fun y => m_nr (modat s y) =? nr) (l ++ t) = Some q -> find (fun y => m_nr (modat s y) =? nr) t = Some q) as K.
  { induction l as [|a l IH]; intros t Hl Hf; cbn [app find] in Hf; auto. destruct (m_nr (modat s a) =? nr); [|apply IH; auto; intros; apply Hl; right; auto].
    injection Hf as ->. specialize (Hl q (or_introl eq_refl)). lia. }
  apply K in H; [|intros x Hx; apply in_seq in Hx; lia]. cbn [find] in H. rewrite X, N.eqb_refl in H. injection H as ->. lia.
Qed.
(** a silent module: neither its data nor its system identifier is sent *)
Lemma enabled_in s p o : In (p, o) (enabled s) -> (p < length (tab_of s))%nat /\ awake s p = true /\ (o < m_ntx (modat s p))%nat.
Proof.
  unfold enabled. intro H. apply in_flat_map in H. destruct H as (q & Hq & H). apply in_seq in Hq. destruct (awake s q) eqn:Aw; [|destruct H].
  apply in_map_iff in H. destruct H as (x & Hx & Hi). injection Hx as -> ->. apply in_seq in Hi. repeat split; auto; lia.
Qed.
Lemma silent_quiet_I pre o s s' new p : TxI E s -> NrI E s -> reached E pre s -> step E o s = Ret (tt, s') -> added s s' new ->
  (p < length (tab_of s))%nat -> awake s p = false ->
  forall f, In f (sent new) -> fst (fst f) <> sys_tx_id (m_nr (modat s p)) /\ (forall obj, (obj < 4)%nat -> fst (fst f) <> data_tx_id (m_nr (modat s p)) obj).
Proof.
  intros I J R H A Lp Sp f Hf. pose proof (WF_reached E _ _ R) as W.
  rewrite (tab_len E s W) in Lp. pose proof (ti_nr E s I p Lp) as Np.
  assert (in_use (modat s p) = true) as Up. { destruct (in_use (modat s p)) eqn:U; auto. apply (ti_unused E s I) in U; auto. destruct U as [_ U]. congruence. }
  assert (forall q, (q < MAXM E)%nat -> in_use (modat s q) = true -> m_nr (modat s q) = m_nr (modat s p) -> q = p) as Un.
  { intros q Lq Uq Q. destruct (Nat.lt_total q p) as [L|[L|L]]; auto; exfalso; [eapply (nr_diff E s J q p)|eapply (nr_diff E s J p q)]; eauto. }
  destruct (sent_step _ _ _ _ _ I R H A f Hf) as [(q & o' & Hi & ->)|(nr & Hs & ->)].
  - apply enabled_in in Hi. destruct Hi as (Lq & Aq & Oq). rewrite (tab_len E s W) in Lq. pose proof (ti_nr E s I q Lq) as Nq.
    pose proof (modat_ok E s q W) as (_ & M4 & _). unfold NOBJ in M4.
    assert (in_use (modat s q) = true) as Uq. { destruct (in_use (modat s q)) eqn:U; auto. apply (ti_unused E s I) in U; auto. destruct U as [U _]. unfold ntx in U. lia. }
    unfold data_tx_id, sys_tx_id. split; [lia|]. intros obj Ho Q. assert (m_nr (modat s q) = m_nr (modat s p)) as Q' by lia.
    apply Un in Q'; auto. congruence.
  - unfold speaks in Hs. destruct (entry_of_nr s nr) as [q|] eqn:En; [|discriminate]. pose proof (entry_first s nr q En) as (Lq & Qn & Hfirst).
    rewrite (tab_len E s W) in Lq. pose proof (ti_nr E s I q Lq) as Nq. rewrite Qn in Nq. rewrite can_ident_sys by lia. unfold data_tx_id, sys_tx_id. split; [|intros; lia].
    intro Q. assert (nr = m_nr (modat s p)) as -> by lia. clear Q.
    assert (q <= p)%nat as L. { destruct (Nat.le_gt_cases q p); auto. exfalso. apply (Hfirst p); auto. }
    assert (in_use (modat s q) = true) as Uq. { destruct (Nat.eq_dec q p) as [->|]; auto. apply (nr_pre E s J q p); auto; lia. }
    apply Un in Qn; auto. subst q. congruence.
Qed.
Lemma silent_quiet pre o s s' new p : Forall (plain E) pre -> reached E pre s -> step E o s = Ret (tt, s') -> added s s' new ->
  (p < length (tab_of s))%nat -> awake s p = false ->
  forall f, In f (sent new) -> fst (fst f) <> sys_tx_id (m_nr (modat s p)) /\ (forall obj, (obj < 4)%nat -> fst (fst f) <> data_tx_id (m_nr (modat s p)) obj).
Proof. intros F R. apply (silent_quiet_I pre); auto; [eapply TxI_reached; eauto|eapply NrI_reached; eauto]. Qed.

(** ** silent states *)
Definition same_sil (s s' : node) : Prop := k_silent (n_cfg s') = k_silent (n_cfg s).
#[local] Instance pre_same_sil : Pre same_sil.
Proof. unfold same_sil. split; intros; congruence. Qed.
Lemma sil_define_obj a b c d e f g : pres same_sil (define_obj E a b c d e f g).
Proof. unfold define_obj, hw_define. pres_tac; reflexivity. Qed.
Lemma sil_off p : pres same_sil (sync_off p).
Proof. unfold sync_off, tx_data_off. repeat ((simple apply pres_call_rx; [typeclasses eauto| intros; reflexivity]) || pres_tac1); reflexivity. Qed.
Lemma sil_on p : pres same_sil (sync_on p).
Proof. unfold sync_on, tx_data_on. repeat ((simple apply pres_call_rx; [typeclasses eauto| intros; reflexivity]) || pres_tac1); reflexivity. Qed.
Lemma sil_again p : pres same_sil (st <- gets (fun s => silat s p) ;; set_silent_awake E p st).
Proof.
  intros s e s' H. mbind H as st s0 H0. apply gets_inv in H0. destruct H0 as [-> ->]. unfold set_silent_awake in H. destruct (p <? MAXM E)%nat; [|apply ret_inv in H; destruct H as [_ ->]; apply pre_refl].
  mbind H as u s1 H1. apply modify_inv in H1. assert (same_sil s s1) as S1.
  { subst s1. unfold same_sil. cbn. destruct (Nat.lt_ge_cases p (length (k_silent (n_cfg s)))) as [L|L]; [|apply set_nth_beyond, L].
    apply set_nth_id. unfold silat. rewrite (nth_error_nth' _ 0) by exact L. reflexivity. }
  eapply pre_trans; [exact S1|]. clear S1. subst s1. revert H. match goal with |- ?m ?x = _ -> _ => enough (pres same_sil m) as P by (intro H; exact (P _ _ _ H)) end.
  repeat (simple apply sil_off || simple apply sil_on || pres_tac1); reflexivity.
Qed.
Lemma sil_shared a b c d : pres same_sil (define_shared E a b c d).
Proof. unfold define_shared, get_async_ctrl_obj, next_free. repeat (simple apply sil_define_obj || simple apply sil_again || pres_tac1); reflexivity. Qed.
Lemma sil_cnfg a b c : pres same_sil (tx_data_cnfg E a b c).
Proof. unfold tx_data_cnfg. pres_tac; reflexivity. Qed.
Lemma sil_nr_ids t n a : pres same_sil (change_nr_ids E t n a).
Proof. unfold change_nr_ids. repeat (simple apply sil_define_obj || simple apply sil_shared || simple apply sil_cnfg || pres_tac1); reflexivity. Qed.
Lemma sil_add d nr rxs txs : pres same_sil (add_module E d nr rxs txs).
Proof. unfold add_module, set_module, rx_slot, rx_data_cnfg, next_free. repeat (simple apply sil_define_obj || simple apply sil_shared || simple apply sil_cnfg || pres_tac1); reflexivity. Qed.
Lemma sil_baud r : pres same_sil (set_baudrate r).
Proof.
  unfold set_baudrate. refine (pres_bind _ _ _ _ _); [pres_tac|intro tab]. generalize ERR_OK.
  induction tab as [|x tab IH]; intro e; cbn [set_baudrate_loop]; [pres_tac|].
  destruct (r =? x); [|apply IH]. unfold hw_set_baudrate. repeat (simple apply IH || pres_tac1); reflexivity.
Qed.
Lemma sil_type p t : pres same_sil (change_type E p t).
Proof. unfold change_type. repeat (simple apply sil_cnfg || pres_tac1); reflexivity. Qed.
Lemma silent_unchanged o s s' : may_silence E o = false -> step E o s = Ret (tt, s') -> same_sil s s'.
Proof.
  intros Hm. revert s s'. enough (pres same_sil (step E o)) as P by (intros s s'; apply P).
  assert (kernel E same_sil o -> pres same_sil (step E o)) as K by (apply (kernel_step E); try typeclasses eauto; intros; reflexivity).
  destruct o; try (apply K; cbn [kernel]; auto; try (intro; reflexivity); fail).
  - cbn [may_silence] in Hm. destruct (sys_mo E mo) eqn:Hs; [|apply K; cbn [kernel]; unfold sys_mo in Hs; rewrite Hs; discriminate].
    destruct (N.eqb_spec dlc 8) as [->|Nd].
    + apply K. intros _. change (8 =? 8) with true in Hm. cbn [andb] in Hm. apply orb_false_elim in Hm. destruct Hm as [Hm H3]. apply orb_false_elim in Hm. destruct Hm as [H1 H2].
      unfold sys_kernel. change (b data 0) with (byte_at data 0). unfold cmd_of. rewrite H1, H2, H3.
      repeat match goal with |- context [if byte_at data 0 =? ?k then _ else _] => destruct (N.eqb_spec (byte_at data 0) k); [cbv iota|] end; try exact I.
      * split; [intro; unfold set_node_mode; pres_tac; reflexivity|apply sil_baud].
      * intro. apply sil_type.
    + cbn [step]. unfold frame_rx. refine (pres_bind _ _ _ _ _); [pres_tac|intro sy]. refine (pres_bind _ _ _ _ _); [destruct sy; [|pres_tac]|intro].
      { apply (kpres_on_data E same_sil); try typeclasses eauto; intros; reflexivity. }
      refine (pres_bind _ _ _ _ _); [destruct (mo =? MO_PROCESS)%nat; [|pres_tac]|intro].
      { apply (kpres_on_process E same_sil); try typeclasses eauto; intros; reflexivity. }
      fold (sys_mo E mo). rewrite Hs. unfold on_sys, sys_msg_rx. apply N.eqb_neq in Nd. rewrite Nd. cbn [negb]. pres_tac; reflexivity.
  - apply K. cbn [kernel]. apply sil_add.
  - discriminate.
  - apply K. cbn [kernel]. apply sil_nr_ids.
  - apply K. cbn [kernel]. unfold change_type_add. pres_tac; reflexivity.
  - apply K. cbn [kernel]. unfold set_node_mode. pres_tac; reflexivity.
  - apply K. cbn [kernel]. apply sil_baud.
  - apply K. cbn [kernel]. unfold set_active_critical. repeat (simple apply sil_off || simple apply sil_on || pres_tac1).
Qed.

(** ** putting a module to sleep and waking it up *)
Lemma find_type_nr_named s type nr : find_type_nr (tab_of s) type nr 0 = named s type nr.
Proof.
  unfold named, modat. generalize (tab_of s). intro tab.
  assert (forall i, find_type_nr tab type nr i = option_map (fun p => (i + p)%nat) (find (fun p => strn_eq 5 type (m_type (nth p tab modl0)) && (m_nr (nth p tab modl0) =? nr)) (seq 0 (length tab)))) as K.
  { induction tab as [|m t IH]; intro i; cbn [find_type_nr length seq find nth]; [reflexivity|].
    destruct (strn_eq 5 type (m_type m) && (m_nr m =? nr)); [cbn; f_equal; lia|]. rewrite IH, <- seq_shift.
    assert (forall l, find (fun p => strn_eq 5 type (m_type (nth p (m :: t) modl0)) && (m_nr (nth p (m :: t) modl0) =? nr)) (map S l) =
      option_map S (find (fun p => strn_eq 5 type (m_type (nth p t modl0)) && (m_nr (nth p t modl0) =? nr)) l)) as F.
    { induction l as [|x l IHl]; cbn [map find nth]; [reflexivity|]. destruct (strn_eq 5 type (m_type (nth x t modl0)) && (m_nr (nth x t modl0) =? nr)); [reflexivity|exact IHl]. }
    rewrite F. destruct (find _ _); cbn; [f_equal; lia|reflexivity]. }
  rewrite K. destruct (find _ _); reflexivity.
Qed.
Lemma named_spec s type nr p : named s type nr = Some p -> (p < length (tab_of s))%nat /\ strn_eq 5 type (m_type (modat s p)) = true /\ m_nr (modat s p) = nr.
Proof.
  intro H. apply find_some in H. destruct H as [H1 H2]. apply in_seq in H1. apply andb_prop in H2. destruct H2 as [H2 H3]. apply N.eqb_eq in H3. repeat split; auto. lia.
Qed.
Lemma step_silent type nr st s s' : step E (OpSilent type nr st) s = Ret (tt, s') ->
  match named s type nr with Some p => exists e, set_silent_awake E p st s = Ret (e, s') | None => s' = s end.
Proof.
  intro H. cbn [step] in H. unfold ignore, set_silent_awake_type_nr in H. mbind H as e s1 H1. apply ret_inv in H. destruct H as [_ ->].
  mbind H1 as tab s0 H0. apply gets_inv in H0. destruct H0 as [-> ->]. rewrite find_type_nr_named in H1. destruct (named s type nr); [eauto|]. apply ret_inv in H1. tauto.
Qed.
Lemma set_silent_switched p (on : bool) s e s' : WF E s -> (p < length (tab_of s))%nat -> set_silent_awake E p (if on then AWAKE else SILENT) s = Ret (e, s') -> e = ERR_OK /\ switched on p s s'.
Proof.
  intros W Lp H. pose proof (tab_len E s W) as Lt. pose proof (sil_len E s W) as Ls. pose proof (modat_ok E s p W) as (_ & Mt & _).
  apply set_silent_awake_eq in H; [|exact W]. assert ((p <? MAXM E)%nat = true) as Q by (apply Nat.ltb_lt; lia). rewrite Q in H. cbv zeta in H.
  assert (NOBJ * p + m_ntx (modat s p) <= 32)%nat as P32 by (apply (pos32 E HE); [lia|exact Mt]).
  assert (exists X, n_cfg s' = n_cfg (upd_mod p (if on then awakened else silenced) (marked s p (if on then AWAKE else SILENT))) /\ e = ERR_OK /\
    n_tx s' = set_x_reg (n_tx s) X /\ (forall q o, (o < 4)%nat -> N.testbit X (N.of_nat (4 * q + o)) = if (q =? p)%nat && (o <? m_ntx (modat s p))%nat then on else cyclic s q o) /\
    n_mem s' = (if on then n_mem s else zeroed (firstn (m_nrx (modat s p)) (m_rx (modat s p))) (n_mem s)) /\
    n_sync s' = n_sync s /\ n_sys s' = n_sys s /\ n_hw s' = n_hw s /\ n_err s' = n_err s) as (X & Hc & -> & Hx & HX & Hm & R1 & R2 & R3 & R4).
  { destruct on; [change (AWAKE =? SILENT) with false in H; change (AWAKE =? AWAKE) with true in H|change (SILENT =? SILENT) with true in H]; cbv iota in H; destruct H as [-> H]; subst s';
      eexists; (split; [reflexivity|]); (split; [reflexivity|]); (split; [reflexivity|]); (split; [|repeat split; reflexivity]);
      intros q o Ho; [rewrite N.lor_spec|rewrite N.ldiff_spec]; rewrite objmask_at by (auto; unfold NOBJ; lia); unfold cyclic;
      change (x_reg (n_tx (upd_mod p _ _))) with (x_reg (n_tx s)); destruct ((q =? p)%nat && (o <? m_ntx (modat s p))%nat); cbn [negb]; rewrite ?orb_true_r, ?orb_false_r, ?andb_false_r, ?andb_true_r; reflexivity. }
  split; [reflexivity|]. set (g := if on then awakened else silenced) in *. set (a := marked s p (if on then AWAKE else SILENT)) in *.
  assert (tab_of a = tab_of s) as Ta by reflexivity. assert (forall q, modat s' q = if (q =? p)%nat then g (modat s p) else modat s q) as Hmod.
  { intro q. transitivity (modat (upd_mod p g a) q); [unfold modat, tab_of; rewrite Hc; reflexivity|]. rewrite modat_upd_mod by (rewrite Ta; exact Lp).
    destruct (q =? p)%nat; reflexivity. }
  assert (forall q, awake s' q = if (q =? p)%nat then on else awake s q) as Haw.
  { intro q. unfold awake. replace (silat s' q) with (silat a q) by (unfold silat; rewrite Hc; reflexivity). unfold a. rewrite marked_silat by lia.
    destruct (q =? p)%nat; [destruct on; reflexivity|reflexivity]. }
  assert (length (tab_of s') = length (tab_of s)) as Hl. { unfold tab_of at 1. rewrite Hc. fold (tab_of (upd_mod p g a)). rewrite tab_upd_mod. exact (f_equal _ Ta). }
  split; auto.
  - rewrite Hmod, Nat.eqb_refl. unfold g. destruct on; reflexivity.
  - intros q Hq. rewrite Hmod. apply Nat.eqb_neq in Hq. rewrite Hq. reflexivity.
  - intros q o. unfold enabled. rewrite Hl, in_flat_map. split.
    + intros (x & Hx1 & Hx2). rewrite Haw, Hmod in Hx2. destruct (Nat.eqb_spec x p) as [->|Nx].
      * destruct on eqn:Eon; [|destruct Hx2]. apply in_map_iff in Hx2. destruct Hx2 as (y & Hy & Hi). injection Hy as -> ->. apply in_seq in Hi. rewrite Nat.eqb_refl. cbn in Hi. split; [reflexivity|lia].
      * destruct (awake s x) eqn:Ax; [|destruct Hx2]. pose proof Hx2 as Hx3. apply in_map_iff in Hx2. destruct Hx2 as (y & Hy & Hi). injection Hy as -> ->.
        apply Nat.eqb_neq in Nx. rewrite Nx. apply in_flat_map. exists q. rewrite Ax. auto.
    + destruct (Nat.eqb_spec q p) as [->|Nq].
      * intros [-> Ho]. exists p. split; [apply in_seq; lia|]. rewrite Haw, Hmod, Nat.eqb_refl. apply in_map_iff. exists o. split; [reflexivity|]. apply in_seq. cbn. lia.
      * intro Hy. apply in_flat_map in Hy. destruct Hy as (x & Hx1 & Hx2). exists x. split; [exact Hx1|]. destruct (awake s x) eqn:Ax; [|destruct Hx2]. pose proof Hx2 as Hx3. apply in_map_iff in Hx2. destruct Hx2 as (y & Hy & Hi). injection Hy as -> ->.
        rewrite Haw, Hmod. apply Nat.eqb_neq in Nq. rewrite Nq, Ax. exact Hx3.
  - intros q o Ho. unfold cyclic at 1. rewrite Hx. apply HX, Ho.
  - rewrite Hx. repeat split; auto. unfold nmod. rewrite Hc. reflexivity.
Qed.
Lemma switch_step pre type nr p (on : bool) s s' : reached E pre s -> named s type nr = Some p -> step E (OpSilent type nr (if on then AWAKE else SILENT)) s = Ret (tt, s') -> switched on p s s'.
Proof.
  intros R Hn H. pose proof (WF_reached E _ _ R) as W. apply step_silent in H. rewrite Hn in H. destruct H as [e H]. apply named_spec in Hn. eapply set_silent_switched; eauto. tauto.
Qed.

(** the configuration of the modules in use survives plain operations *)
Lemma mapfirst_twice {A} n (f g : A -> A) l : mapfirst n g (mapfirst n f l) = mapfirst n (fun x => g (f x)) l.
Proof.
  revert n. induction l as [|x l IH]; intros [|n]; try reflexivity. unfold mapfirst in *. cbn [firstn skipn map app]. f_equal. apply IH.
Qed.
Lemma awakened_silenced m : awakened (silenced m) = awakened m.
Proof. unfold awakened, silenced. cbn [m_type m_nr m_nrx m_ntx m_rx m_tx m_nrx_s m_ntx_s]. rewrite !mapfirst_twice. reflexivity. Qed.
Lemma awakened_twice m : awakened (awakened m) = awakened m.
Proof. unfold awakened. cbn [m_type m_nr m_nrx m_ntx m_rx m_tx m_nrx_s m_ntx_s]. rewrite !mapfirst_twice. reflexivity. Qed.
Lemma silenced_twice m : silenced (silenced m) = silenced m.
Proof. unfold silenced. cbn [m_type m_nr m_nrx m_ntx m_rx m_tx m_nrx_s m_ntx_s]. rewrite !mapfirst_twice. reflexivity. Qed.
Definition kept (s0 s : node) : Prop := forall q, in_use (modat s0 q) = true -> awakened (modat s q) = awakened (modat s0 q).
Lemma kept_in_use s0 s q : kept s0 s -> in_use (modat s0 q) = true -> in_use (modat s q) = true.
Proof. intros K U. apply K in U as Q. change (in_use (awakened (modat s q)) = true). rewrite Q. exact U. Qed.
Lemma kept_silent s0 p st s e s' : WF E s -> kept s0 s -> set_silent_awake E p st s = Ret (e, s') -> kept s0 s'.
Proof.
  intros W K H. apply set_silent_awake_eq in H; [|exact W]. pose proof (tab_len E s W) as Lt. destruct (Nat.ltb_spec p (MAXM E)) as [L|L]; [|destruct H as [_ ->]; exact K]. cbv zeta in H.
  assert (exists g, (forall m, awakened (g m) = awakened m) /\ forall q, modat s' q = if (q =? p)%nat then g (modat s p) else modat s q) as (g & Hg & Hm).
  { assert (forall g q, modat (upd_mod p g (marked s p st)) q = if (q =? p)%nat then g (modat s p) else modat s q) as Q.
    { intros g q. rewrite modat_upd_mod by (change (tab_of (marked s p st)) with (tab_of s); lia). destruct (q =? p)%nat; reflexivity. }
    destruct (st =? SILENT); [exists silenced|destruct (st =? AWAKE); [exists awakened|exists (fun m => m)]]; destruct H as [_ ->].
    - split; [apply awakened_silenced|]. intro q. rewrite <- Q. reflexivity.
    - split; [apply awakened_twice|]. intro q. rewrite <- Q. reflexivity.
    - split; [reflexivity|]. intro q. destruct (Nat.eqb_spec q p) as [->|]; reflexivity. }
  intros q U. rewrite Hm. destruct (Nat.eqb_spec q p) as [->|N]; [rewrite Hg|]; apply K, U.
Qed.
Lemma kept_same_tab s0 s s' : tab_of s' = tab_of s -> kept s0 s -> kept s0 s'.
Proof. intros T K q U. unfold modat. rewrite T. apply K, U. Qed.
Lemma kept_keeps_tab {A} s0 (m : M A) : pres (fun s s' => tab_of s' = tab_of s) m -> keeps E (kept s0) m.
Proof. intros P s a s' W K H. apply P in H. revert K. apply kept_same_tab, H. Qed.
#[local] Instance pre_tab : Pre (fun s s' => tab_of s' = tab_of s).
Proof. split; congruence. Qed.
Lemma tab_baud r : pres (fun s s' => tab_of s' = tab_of s) (set_baudrate r).
Proof.
  unfold set_baudrate. refine (pres_bind _ _ _ _ _); [pres_tac|intro tab]. generalize ERR_OK.
  induction tab as [|x tab IH]; intro e; cbn [set_baudrate_loop]; [pres_tac|].
  destruct (r =? x); [|apply IH]. unfold hw_set_baudrate. repeat (simple apply IH || pres_tac1); reflexivity.
Qed.
Lemma tab_mode m : pres (fun s s' => tab_of s' = tab_of s) (set_node_mode m).
Proof. unfold set_node_mode. pres_tac; reflexivity. Qed.
Lemma kept_step s0 o s s' : plain E o -> WF E s -> kept s0 s -> step E o s = Ret (tt, s') -> kept s0 s'.
Proof.
  intros Po W K H. assert (op_keeps E (kept s0) o -> kept s0 s') as Go.
  { intro Q. eapply (keeps_step E (kept s0)); try exact H; auto; intros ? ? Hk; exact Hk. }
  destruct o; try (apply Go; exact I); cbn [plain op_keeps] in *.
  - apply Go. intro Hs. destruct (Po Hs) as (P1 & P2 & _). unfold sys_keeps. change (b data 0) with (byte_at data 0). unfold cmd_of.
    repeat match goal with |- context [if byte_at data 0 =? ?k then _ else _] => destruct (N.eqb_spec (byte_at data 0) k); [cbv iota|] end; try exact I; try congruence.
    + split; [intro|]; apply kept_keeps_tab; [apply tab_mode|apply tab_baud].
    + intros nr1 sa e1 sb Wa Ka Ha. unfold sys_silent_awake in Ha. repeat (destruct (SERIAL E =? serial_of data); [|apply ret_inv in Ha; destruct Ha as [_ ->]; exact Ka]).
      mbind Ha as tab sc Hc. apply gets_inv in Hc. destruct Hc as [-> ->]. destruct (find_nr (tab_of sa) nr1 0) as [p|]; [|apply ret_inv in Ha; destruct Ha as [_ ->]; exact Ka].
      mbind Ha as m sc Hc. apply gets_inv in Hc. destruct Hc as [-> ->]. destruct (strn_eq 4 (m_type (modat sa p)) (tl data)); [|apply ret_inv in Ha; destruct Ha as [_ ->]; exact Ka].
      eapply kept_silent; eauto.
    + intros nr1 sa e1 sb Wa Ka Ha. unfold sys_silent_awake in Ha. repeat (destruct (SERIAL E =? serial_of data); [|apply ret_inv in Ha; destruct Ha as [_ ->]; exact Ka]).
      mbind Ha as tab sc Hc. apply gets_inv in Hc. destruct Hc as [-> ->]. destruct (find_nr (tab_of sa) nr1 0) as [p|]; [|apply ret_inv in Ha; destruct Ha as [_ ->]; exact Ka].
      mbind Ha as m sc Hc. apply gets_inv in Hc. destruct Hc as [-> ->]. destruct (strn_eq 4 (m_type (modat sa p)) (tl data)); [|apply ret_inv in Ha; destruct Ha as [_ ->]; exact Ka].
      eapply kept_silent; eauto.
  - cbn [step] in H. unfold ignore in H. mbind H as e s1 H1. apply ret_inv in H. destruct H as [_ ->]. apply add_module_inv in H1.
    destruct (first_unused (tab_of s) 0) as [i|] eqn:Fu; [|destruct H1 as [_ ->]; exact K]. apply first_unused_spec in Fu. rewrite Nat.sub_0_r in Fu. destruct Fu as (Li & Ui & _). fold (modat s i) in Ui.
    destruct H1 as (_ & _ & _ & Ho & _). intros q U. rewrite Ho; [apply K, U|]. intros ->. apply (kept_in_use _ _ _ K) in U. congruence.
  - apply step_silent in H. destruct (named s type nr) as [p|]; [|subst; exact K]. destruct H as [e H]. eapply kept_silent; eauto.
  - destruct Po.
  - apply Go. apply kept_keeps_tab. unfold change_type_add. pres_tac; reflexivity.
  - apply Go. intros sa. apply kept_same_tab. reflexivity.
  - apply Go. intros sa. apply kept_same_tab. reflexivity.
  - apply Go. apply kept_keeps_tab, tab_mode.
  - apply Go. apply kept_keeps_tab, tab_baud.
  - destruct Po.
Qed.
Lemma kept_run s0 ops : forall s s', Forall (plain E) ops -> WF E s -> kept s0 s -> run E ops s = Ret (tt, s') -> kept s0 s'.
Proof.
  induction ops as [|o ops IH]; intros s s' F W K H; cbn [run] in H; [apply ret_inv in H; destruct H as [_ ->]; exact K|].
  inversion F as [|? ? F1 F2]; subst. mbind H as u s1 H1. destruct u. eapply IH; [exact F2| | |exact H]; [eapply wf_step; eauto|eapply kept_step; eauto].
Qed.
Lemma kept_refl s : kept s s.
Proof. intros q _. reflexivity. Qed.
Lemma kept_named s0 s type nr p : NrI E s0 -> WF E s0 -> WF E s -> kept s0 s -> hd 0 type <> 0 -> named s0 type nr = Some p -> named s type nr = Some p.
Proof.
  intros J W0 W K Ht H. pose proof (tab_len E s W) as L. pose proof (tab_len E s0 W0) as L0. pose proof (named_spec _ _ _ _ H) as (Hp & T & Hn). 
  assert (in_use (modat s0 p) = true) as Up. { unfold in_use. apply negb_true_iff, N.eqb_neq. rewrite (strn_hd 4 type) by exact T. exact Ht. }
  assert (forall q, (q <= p)%nat -> m_type (modat s q) = m_type (modat s0 q) /\ m_nr (modat s q) = m_nr (modat s0 q)) as Q.
  { intros q Hq. assert (in_use (modat s0 q) = true) as Uq. { destruct (Nat.eq_dec q p) as [->|]; auto. apply (nr_pre E s0 J q p); auto; lia. }
    apply K in Uq. split; [change (m_type (awakened (modat s q)) = m_type (awakened (modat s0 q)))|change (m_nr (awakened (modat s q)) = m_nr (awakened (modat s0 q)))]; rewrite Uq; reflexivity. }
  apply find_first; [lia| |].
  - destruct (Q p (Nat.le_refl _)) as [-> ->]. rewrite T, Hn, N.eqb_refl. reflexivity.
  - intros j Hj. destruct (Q j ltac:(lia)) as [-> ->]. destruct (strn_eq 5 type (m_type (modat s0 j)) && (m_nr (modat s0 j) =? nr)) eqn:X; auto.
    apply andb_prop in X. destruct X as [X1 X2]. apply N.eqb_eq in X2. exfalso. apply (nr_diff E s0 J j p); auto; try lia; try congruence.
    unfold in_use. apply negb_true_iff, N.eqb_neq. rewrite (strn_hd 4 type) by exact X1. exact Ht.
Qed.
Lemma reached_app pre o s s' : reached E pre s -> step E o s = Ret (tt, s') -> reached E (pre ++ [o]) s'.
Proof.
  intros (s0 & B & R) H. exists s0. split; [exact B|]. clear B. revert s0 R. induction pre as [|x pre IH]; intros s0 R; cbn [app run] in *.
  - apply ret_inv in R. destruct R as [_ ->]. unfold bind. rewrite H. reflexivity.
  - mbind R as u s1 R1. unfold bind. rewrite R1. apply IH, R.
Qed.
Lemma reached_run pre ops s s' : reached E pre s -> run E ops s = Ret (tt, s') -> reached E (pre ++ ops) s'.
Proof.
  revert pre s. induction ops as [|o ops IH]; intros pre s R H; cbn [run] in H.
  - apply ret_inv in H. destruct H as [_ ->]. rewrite app_nil_r. exact R.
  - mbind H as u s1 H1. destruct u. replace (pre ++ o :: ops) with ((pre ++ [o]) ++ ops) by (rewrite <- app_assoc; reflexivity). eapply IH; [eapply reached_app; eauto|exact H].
Qed.
(** sleep, any plain operations, wake up *)
Lemma round_trip pre mid type nr p s0 s1 s2 s3 : Forall (plain E) pre -> reached E pre s0 -> hd 0 type <> 0 -> named s0 type nr = Some p -> awake s0 p = true -> modat s0 p = awakened (modat s0 p) ->
  step E (OpSilent type nr SILENT) s0 = Ret (tt, s1) -> Forall (plain E) mid -> run E mid s1 = Ret (tt, s2) -> step E (OpSilent type nr AWAKE) s2 = Ret (tt, s3) ->
  modat s3 p = modat s0 p /\ awake s3 p = true /\ (forall o, In (p, o) (enabled s3) <-> In (p, o) (enabled s0)) /\
  (forall o, (o < 4)%nat -> cyclic s3 p o = cyclic s0 p o).
Proof.
  intros F R Ht Hn Aw Am H1 F2 H2 H3. pose proof (WF_reached E _ _ R) as W0. pose proof (NrI_reached E _ _ F R) as J.
  pose proof (named_spec _ _ _ _ Hn) as (Hp & T & Hnr). pose proof (tab_len E s0 W0) as L0.
  assert (in_use (modat s0 p) = true) as Up. { unfold in_use. apply negb_true_iff, N.eqb_neq. rewrite (strn_hd 4 type) by exact T. exact Ht. }
  assert (plain E (OpSilent type nr SILENT)) as P1 by (split; auto). assert (plain E (OpSilent type nr AWAKE)) as P3 by (split; auto).
  assert (WF E s1) as W1 by (eapply wf_step; eauto). assert (kept s0 s1) as K1 by exact (kept_step s0 _ s0 s1 P1 W0 (kept_refl s0) H1).
  assert (kept s0 s2) as K2 by (eapply (kept_run s0 mid s1); eauto). pose proof (reached_app _ _ _ _ R H1) as R1. pose proof (reached_run _ _ _ _ R1 H2) as R2.
  pose proof (WF_reached E _ _ R2) as W2. pose proof (kept_named _ _ _ _ _ J W0 W2 K2 Ht Hn) as Hn2.
  pose proof (switch_step _ _ _ _ true _ _ R2 Hn2 H3) as [S1 S2 S3 S4 S5 S6 S7]. pose proof (K2 p Up) as Q. rewrite <- Am in Q.
  assert (m_ntx (modat s2 p) = m_ntx (modat s0 p)) as Nt by (change (m_ntx (awakened (modat s2 p)) = m_ntx (modat s0 p)); rewrite Q; reflexivity).
  assert (m_ntx (modat s0 p) <= 4)%nat as M4 by (pose proof (modat_ok E s0 p W0) as (_ & M & _); exact M).
  split; [congruence|]. split; [|split].
  - rewrite S3, Nat.eqb_refl by (rewrite (tab_len E s2 W2); lia). reflexivity.
  - intro o. rewrite S4, Nat.eqb_refl, Nt. split.
    + intros [_ Ho]. unfold enabled. apply in_flat_map. exists p. split; [apply in_seq; lia|]. rewrite Aw. apply in_map_iff. exists o. split; [reflexivity|apply in_seq; lia].
    + intro Hi. split; [reflexivity|]. apply enabled_in in Hi. tauto.
  - intros o Ho. rewrite S5, Nat.eqb_refl, Nt by exact Ho. cbn [andb].
    pose proof (TxI_reached E HE _ _ F R) as I0. rewrite (tg_bits E _ _ _ (ti_g E s0 I0) p o) by (unfold NOBJ; lia). rewrite Aw. unfold ntx. cbn [andb].
    destruct (Nat.ltb_spec o (m_ntx (modat s0 p))); [reflexivity|].
    assert (TxI E s2) as I2. { eapply (TxI_reached E HE); [|exact R2]. apply Forall_app. split; [apply Forall_app; split; auto|exact F2]. }
    rewrite (tg_bits E _ _ _ (ti_g E s2 I2) p o) by (unfold NOBJ; lia). unfold ntx. rewrite Nt. destruct (Nat.ltb_spec o (m_ntx (modat s0 p))); [lia|]. apply andb_false_r.
Qed.

(** ** a silent module receives nothing *)
Definition SilI (s : node) : Prop := forall p, (p < MAXM E)%nat -> awake s p = false -> modat s p = silenced (modat s p).
Lemma SilI_same s s' : tab_of s' = tab_of s -> k_silent (n_cfg s') = k_silent (n_cfg s) -> SilI s -> SilI s'.
Proof. intros T S I p Hp Ha. unfold modat, awake, silat in *. rewrite T. rewrite S in Ha. apply I; auto. Qed.
Lemma SilI_silent p (on : bool) s e s' : WF E s -> SilI s -> set_silent_awake E p (if on then AWAKE else SILENT) s = Ret (e, s') -> SilI s'.
Proof.
  intros W I H. destruct (Nat.lt_ge_cases p (length (tab_of s))) as [L|L].
  - apply set_silent_switched in H; auto. destruct H as (_ & [S1 S2 S3 _ _ _ _]). intros q Hq Ha. rewrite S3 in Ha by (rewrite (tab_len E s W); exact Hq).
    destruct (Nat.eqb_spec q p) as [->|N]; [rewrite S1, Ha, silenced_twice; reflexivity|]. rewrite S2 by exact N. apply I; auto.
  - rewrite (tab_len E s W) in L. apply set_silent_awake_eq in H; [|exact W]. apply Nat.ltb_ge in L. rewrite L in H. destruct H as [_ ->]. exact I.
Qed.
Definition tabsil (s s' : node) : Prop := tab_of s' = tab_of s /\ k_silent (n_cfg s') = k_silent (n_cfg s).
#[local] Instance pre_tabsil : Pre tabsil.
Proof. unfold tabsil. split; [auto|]. intros a b c [] []. split; congruence. Qed.
Lemma SilI_keeps {A} (m : M A) : pres tabsil m -> keeps E SilI m.
Proof. intros P s a s' W K H. apply P in H. destruct H. revert K. apply SilI_same; auto. Qed.
Lemma tabsil_baud r : pres tabsil (set_baudrate r).
Proof.
  unfold set_baudrate. refine (pres_bind _ _ _ _ _); [pres_tac|intro tab]. generalize ERR_OK.
  induction tab as [|x tab IH]; intro e; cbn [set_baudrate_loop]; [pres_tac|].
  destruct (r =? x); [|apply IH]. unfold hw_set_baudrate. repeat (simple apply IH || pres_tac1); split; reflexivity.
Qed.
Lemma tabsil_mode m : pres tabsil (set_node_mode m).
Proof. unfold set_node_mode. pres_tac; split; reflexivity. Qed.
Lemma SilI_step o s s' : plain E o -> WF E s -> TxI E s -> SilI s -> step E o s = Ret (tt, s') -> SilI s'.
Proof.
  intros Po W T K H. assert (op_keeps E SilI o -> SilI s') as Go.
  { intro Q. eapply (keeps_step E SilI); try exact H; auto; intros ? ? Hk; exact Hk. }
  destruct o; try (apply Go; exact I); cbn [plain op_keeps] in *.
  - apply Go. intro Hs. destruct (Po Hs) as (P1 & P2 & _). unfold sys_keeps. change (b data 0) with (byte_at data 0). unfold cmd_of.
    repeat match goal with |- context [if byte_at data 0 =? ?k then _ else _] => destruct (N.eqb_spec (byte_at data 0) k); [cbv iota|] end; try exact I; try congruence.
    + split; [intro|]; apply SilI_keeps; [apply tabsil_mode|apply tabsil_baud].
    + intros nr1 sa e1 sb Wa Ka Ha. unfold sys_silent_awake in Ha. repeat (destruct (SERIAL E =? serial_of data); [|apply ret_inv in Ha; destruct Ha as [_ ->]; exact Ka]).
      mbind Ha as tab sc Hc. apply gets_inv in Hc. destruct Hc as [-> ->]. destruct (find_nr (tab_of sa) nr1 0) as [p|]; [|apply ret_inv in Ha; destruct Ha as [_ ->]; exact Ka].
      mbind Ha as m sc Hc. apply gets_inv in Hc. destruct Hc as [-> ->]. destruct (strn_eq 4 (m_type (modat sa p)) (tl data)); [|apply ret_inv in Ha; destruct Ha as [_ ->]; exact Ka].
      eapply (SilI_silent p false); eauto.
    + intros nr1 sa e1 sb Wa Ka Ha. unfold sys_silent_awake in Ha. repeat (destruct (SERIAL E =? serial_of data); [|apply ret_inv in Ha; destruct Ha as [_ ->]; exact Ka]).
      mbind Ha as tab sc Hc. apply gets_inv in Hc. destruct Hc as [-> ->]. destruct (find_nr (tab_of sa) nr1 0) as [p|]; [|apply ret_inv in Ha; destruct Ha as [_ ->]; exact Ka].
      mbind Ha as m sc Hc. apply gets_inv in Hc. destruct Hc as [-> ->]. destruct (strn_eq 4 (m_type (modat sa p)) (tl data)); [|apply ret_inv in Ha; destruct Ha as [_ ->]; exact Ka].
      eapply (SilI_silent p true); eauto.
  - assert (same_sil s s') as Ss by (eapply silent_unchanged; [|exact H]; reflexivity).
    cbn [step] in H. unfold ignore in H. mbind H as e s1 H1. apply ret_inv in H. destruct H as [_ ->]. apply add_module_inv in H1.
    destruct (first_unused (tab_of s) 0) as [i|] eqn:Fu; [|destruct H1 as [_ ->]; exact K]. apply first_unused_spec in Fu. rewrite Nat.sub_0_r in Fu. destruct Fu as (Li & Ui & _). fold (modat s i) in Ui.
    destruct H1 as (_ & _ & _ & Ho & _). intros q Hq Ha. assert (awake s q = false) as Ha2 by (unfold awake, silat in *; unfold same_sil in Ss; rewrite Ss in Ha; exact Ha).
    rewrite Ho; [apply K; auto|]. intros ->. destruct (ti_unused E s T i Hq Ui). congruence.
  - apply step_silent in H. destruct (named s type nr) as [p|]; [|subst; exact K]. destruct H as [e H]. destruct Po as [_ [-> | ->]]; [eapply (SilI_silent p false)|eapply (SilI_silent p true)]; eauto.
  - destruct Po.
  - apply Go. apply SilI_keeps. unfold change_type_add. pres_tac; split; reflexivity.
  - apply Go. intros sa. apply SilI_same; reflexivity.
  - apply Go. intros sa. apply SilI_same; reflexivity.
  - apply Go. apply SilI_keeps, tabsil_mode.
  - apply Go. apply SilI_keeps, tabsil_baud.
  - destruct Po.
Qed.
Lemma SilI_reached ops s : Forall (plain E) ops -> reached E ops s -> SilI s.
Proof.
  intro F. revert s. induction ops as [|o ops IH] using rev_ind; intros s R.
  - destruct R as (s0 & B & R). cbn in R. apply ret_inv in R. destruct R as [_ ->]. intros p Hp Ha.
    pose proof (TxI_booted E s0 B) as T. destruct (in_use (modat s0 p)) eqn:U; [|destruct (ti_unused E s0 T p Hp U); congruence].
    exfalso. clear - B U. destruct B as (mem & st & orc & rate & H). unfold can_init in H. apply andthen_inv in H. destruct H as (s1 & H1 & H).
    assert (same_f ident s1 s0) as Sf.
    { revert H. assert (forall m, pres (same_f ident) m -> forall (e:N) s1 s, m s1 = Ret (e, s) -> same_f ident s1 s) as K by (intros; eauto).
      apply K. unfold define_obj, hw_define, msg_objs_init, sys_init, sync_init. pres_tac; same_leaf. }
    apply (same_f_at ident _ _ p) in Sf. injection Sf as Sf _. unfold in_use in U. rewrite Sf in U. unfold config_init in H1. minv_all.
    unfold modat, tab_of in U. cbn in U. rewrite map_map in U. destruct (Nat.lt_ge_cases p (MAXM E)) as [L|L].
    + rewrite nth_map_seq in U by exact L. discriminate.
    + rewrite nth_overflow in U by (rewrite map_length, seq_length; exact L). discriminate.
  - apply Forall_app in F. destruct F as [F1 F2]. inversion F2; subst.
    assert (exists s1, reached E ops s1 /\ step E o s1 = Ret (tt, s)) as (s1 & R1 & Hlast).
    { destruct R as (s0 & B & R). enough (exists s1, run E ops s0 = Ret (tt, s1) /\ step E o s1 = Ret (tt, s)) as (s1 & X1 & X2) by (exists s1; split; [exists s0; auto|exact X2]).
      clear - R. revert s0 R. induction ops as [|x ops IH]; intros s0 R; cbn [app run] in *.
      - exists s0. split; [reflexivity|]. mbind R as u s1 R1. cbn in R. apply ret_inv in R. destruct R as [_ ->]. destruct u. exact R1.
      - mbind R as u s1 R1. apply IH in R. destruct R as (s2 & X1 & X2). exists s2. unfold bind. rewrite R1. auto. }
    refine (SilI_step o s1 s _ (WF_reached E _ _ R1) (TxI_reached E HE _ _ F1 R1) (IH F1 s1 R1) Hlast). assumption.
Qed.
Lemma no_delivery pre s mo id dlc data now s' p : Forall (plain E) pre -> reached E pre s -> owner s mo = Some p -> awake s p = false -> (N.to_nat (id mod 4) < m_nrx (modat s p))%nat ->
  step E (OpFrame mo id dlc data now) s = Ret (tt, s') -> n_mem s' = n_mem s.
Proof.
  intros F R O Aw Hx H. pose proof (WF_reached E _ _ R) as W. pose proof (SilI_reached _ _ F R) as S.
  destruct (is_sync_mo mo s) eqn:Sy.
  - destruct (step_data E _ _ _ _ _ _ _ _ (HwI_reached E _ _ R) O Sy H) as [e H1]. apply rx_data_main_inv in H1. cbn zeta in H1.
    destruct (accepts E s p id dlc); [|destruct H1 as [-> _]; reflexivity]. destruct H1 as (g & app & Eg & Ea & _ & ->).
    assert (p < MAXM E)%nat as Lp. { destruct (Nat.lt_ge_cases p (MAXM E)) as [|L]; auto. rewrite <- (tab_len E s W) in L. unfold modat in Hx. rewrite nth_overflow in Hx by exact L. cbn in Hx. lia. }
    pose proof (modat_ok E s p W) as (M1 & _ & _ & _ & M5 & _).
    assert (r_conv_s (rxat (modat s p) (N.to_nat (id mod 4))) = Some rx_dummy) as Q.
    { rewrite (S p Lp Aw). unfold rxat, silenced. cbn [m_rx]. rewrite mapfirst_nth by lia. destruct (Nat.ltb_spec (N.to_nat (id mod 4)) (m_nrx (modat s p))); [reflexivity|lia]. }
    rewrite Q in Eg. injection Eg as <-. cbn [upd_sync set_n_sync set_n_mem n_mem rx_dummy fst]. apply set_nth_id. exact Ea.
  - pose proof (HwI_reached E _ _ R) as (_ & HI & _). destruct (HI mo (owner_in _ _ _ O)) as [_ Nr]. cbn [step] in H. unfold frame_rx in H.
    mbind H as sy s0 H0. apply gets_inv in H0. destruct H0 as [-> ->]. rewrite Sy in H. mbind H as u s1 H1. apply ret_inv in H1. destruct H1 as [_ ->].
    assert ((mo =? MO_PROCESS)%nat = false /\ (mo =? MO_SYS1)%nat || SYS2 E && (mo =? MO_SYS2)%nat = false) as [X1 X2].
    { split; [apply Nat.eqb_neq; intros ->; apply Nr; left; auto|]. apply orb_false_intro; [apply Nat.eqb_neq; intros ->; apply Nr; right; left; auto|].
      destruct (SYS2 E) eqn:S2; auto. cbn. apply Nat.eqb_neq. intros ->. apply Nr. unfold reserved. rewrite S2. cbn. auto. }
    rewrite X1, X2 in H. mbind H as u2 s2 H2. apply ret_inv in H2. destruct H2 as [_ ->]. apply ret_inv in H. destruct H as [_ ->]. reflexivity.
Qed.
End TxP.
