(** Changes of module types (C69). *)
From Verif Require Import Words WordsFacts Bits ErrModel NodeModel NodeLib NodeInv NodeSpec NodeHw NodeCnt NodeSync NodeImage NodeSilent NodePres NodeSysP NodeTx NodeSend NodeNum NodeRx NodeTxP NodeNr NodeTypeSpec.

Section Type_.
Variable E : env.
Hypothesis HE : env_ok E.
Lemma shape_base m : shape (base m) = shape m.
Proof. unfold shape, base. cbn. rewrite !map_map. reflexivity. Qed.
Lemma serial_same data : has_serial E data = (SERIAL E =? serial_of data).
Proof. symmetry. apply has_serial_spec. Qed.
Lemma shape_nr_ids t n a : pres (same_f shape) (change_nr_ids E t n a).
Proof.
  unfold change_nr_ids. repeat ((simple apply same_cnfg; exact shape_base) || (simple apply same_define_obj; exact shape_base) || (simple apply same_shared; exact shape_base) || pres_tac1); same_leaf.
Qed.
Lemma shape_nr p n : pres (same_f shape) (change_nr E p n).
Proof. unfold change_nr. repeat (simple apply shape_nr_ids || (simple apply same_silent; exact shape_base) || pres_tac1). Qed.
Lemma shape_unchanged mo id dlc data now s s' : (sys_mo E mo = true -> dlc = 8 -> byte_at data 0 <> 49) ->
  step E (OpFrame mo id dlc data now) s = Ret (tt, s') -> same_f shape s s'.
Proof.
  intro Hm. revert s s'. enough (pres (same_f shape) (step E (OpFrame mo id dlc data now))) as P by (intros s s'; apply P).
  assert (kernel E (same_f shape) (OpFrame mo id dlc data now) -> pres (same_f shape) (step E (OpFrame mo id dlc data now))) as K by (apply (kernel_step E); try typeclasses eauto; intros; reflexivity).
  destruct (sys_mo E mo) eqn:Hs; [|apply K; cbn [kernel]; unfold sys_mo in Hs; rewrite Hs; discriminate]. specialize (Hm eq_refl).
  destruct (N.eqb_spec dlc 8) as [Ed|Nd].
  - apply K. intros _. specialize (Hm Ed). unfold sys_kernel. change (b data 0) with (byte_at data 0). unfold cmd_of.
    repeat match goal with |- context [if byte_at data 0 =? ?k then _ else _] => destruct (N.eqb_spec (byte_at data 0) k); [cbv iota|] end; try exact I; try congruence.
    + split; [intro; apply same_mode; exact shape_base|apply same_baud; exact shape_base].
    + intro. apply shape_nr.
    + intro. apply same_sys_silent; exact shape_base.
    + intro. apply same_sys_silent; exact shape_base.
  - cbn [step]. unfold frame_rx. refine (pres_bind _ _ _ _ _); [pres_tac|intro sy]. refine (pres_bind _ _ _ _ _); [destruct sy; [|pres_tac]|intro].
    { apply (kpres_on_data E (same_f shape)); try typeclasses eauto; intros; reflexivity. }
    refine (pres_bind _ _ _ _ _); [destruct (mo =? MO_PROCESS)%nat; [|pres_tac]|intro].
    { apply (kpres_on_process E (same_f shape)); try typeclasses eauto; intros; reflexivity. }
    fold (sys_mo E mo). rewrite Hs. unfold on_sys, sys_msg_rx. apply N.eqb_neq in Nd. rewrite Nd. cbn [negb]. pres_tac; reflexivity.
Qed.
(** what a change leaves alone *)
Definition kept_rest (s s' : node) : Prop := n_mem s' = n_mem s /\ n_err s' = n_err s /\ n_hw s' = n_hw s /\ k_silent (n_cfg s') = k_silent (n_cfg s) /\ k_nmod (n_cfg s') = k_nmod (n_cfg s).
#[local] Instance pre_kept_rest : Pre kept_rest.
Proof. split; [intro; repeat split|]. intros a b c (A1 & A2 & A3 & A4 & A5) (B1 & B2 & B3 & B4 & B5). repeat split; congruence. Qed.
Definition kept_all (s s' : node) : Prop := n_cfg s' = n_cfg s /\ n_log s' = n_log s.
#[local] Instance pre_kept_all : Pre kept_all.
Proof. split; [intro; repeat split|]. intros a b c (A1 & A2) (B1 & B2). split; congruence. Qed.
Lemma rest_change p t : pres kept_rest (change_type E p t).
Proof. unfold change_type, tx_data_cnfg. pres_tac; repeat split. Qed.
Lemma all_loop n i f : (forall j, pres kept_all (f j)) -> pres kept_all (for_do n i f).
Proof. intro H. apply pres_for_do; [typeclasses eauto|exact H]. Qed.
Lemma change_type_inv p t s e s' : (p < length (tab_of s))%nat -> change_type E p t s = Ret (e, s') ->
  (s' = s /\ forall c, nth p (k_chg (n_cfg s)) None = Some c -> strn_eq 4 (m_type (c_desc c)) t = false) \/
  exists c, nth p (k_chg (n_cfg s)) None = Some c /\ strn_eq 4 (m_type (c_desc c)) t = true /\ modat s' p = retype c (modat s p) /\ (forall q, q <> p -> modat s' q = modat s q) /\
    added s s' (match c_cb c with Some f => [EvType f t] | None => [] end).
Proof.
  intros Lp H. unfold change_type in H. mbind H as c s0 H0. apply gets_inv in H0. destruct H0 as [-> ->]. destruct (nth p (k_chg (n_cfg s)) None) as [c|]; [|apply ret_inv in H; destruct H as [_ ->]; left; split; [auto|discriminate]].
  destruct (strn_eq 4 (m_type (c_desc c)) t) eqn:Q; [|apply ret_inv in H; destruct H as [_ ->]; left; split; [auto|intros ? [= <-]; exact Q]]. right. exists c. split; [reflexivity|]. split; [exact Q|].
  mbind H as u0 s0 H0. apply guard_inv in H0. destruct H0 as [_ ->]. mbind H as u1 s1 H1. apply modify_inv in H1. mbind H as u2 s2 H2. apply modify_inv in H2. mbind H as n sx Hx. apply gets_inv in Hx. destruct Hx as [-> ->].
  mbind H as u3 s3 H3. assert (kept_all s2 s3) as K.
  { revert H3. match goal with |- ?m s2 = _ -> _ => enough (pres kept_all m) as P by (intro HH; exact (P _ _ _ HH)) end. apply all_loop. intro j. unfold tx_data_cnfg. pres_tac; repeat split. }
  destruct K as [K1 K2]. mbind H as u4 s4 H4. apply ret_inv in H. destruct H as [_ ->].
  assert (n_cfg s4 = n_cfg s3 /\ n_log s4 = n_log s3 ++ match c_cb c with Some f => [EvType f t] | None => [] end) as (K3 & K4).
  { unfold emit_cb in H4. destruct (c_cb c) as [f|]; [unfold emit in H4; apply modify_inv in H4; subst s4; split; reflexivity|apply ret_inv in H4; destruct H4 as [_ ->]; rewrite app_nil_r; auto]. }
  assert (forall q, modat s4 q = modat s1 q) as M. { intro q. unfold modat, tab_of. rewrite K3, K1. subst s2. reflexivity. }
  subst s1. split; [rewrite M, modat_upd_mod, Nat.eqb_refl by exact Lp; reflexivity|]. split.
  - intros q Nq. rewrite M, modat_upd_mod by exact Lp. apply Nat.eqb_neq in Nq. rewrite Nq. reflexivity.
  - unfold added. rewrite K4, K2. subst s2. reflexivity.
Qed.
Lemma retype_took c m : took_type c m (retype c m).
Proof.
  unfold took_type, retype. cbn [m_nr m_type m_nrx m_ntx]. repeat (split; [reflexivity|]). split; intros i Hi.
  - set (o := rxat _ i). assert (o = retype_rx (rxat m i) (rxat (c_desc c) i) (nth i (c_rx c) 0%nat)) as -> by (unfold o, rxat at 1; cbn [m_rx]; rewrite nth_map_seq by exact Hi; reflexivity). split; [reflexivity|split; reflexivity].
  - set (o := txat _ i). assert (o = retype_tx (txat (c_desc c) i) (nth i (c_tx c) 0%nat)) as -> by (unfold o, txat at 1; cbn [m_tx]; rewrite nth_map_seq by exact Hi; reflexivity). split; [reflexivity|split; reflexivity].
Qed.
Lemma type_step pre mo id dlc data now s s' : reached E pre s -> step E (OpFrame mo id dlc data now) s = Ret (tt, s') -> sys_mo E mo = true -> dlc = 8 -> byte_at data 0 = 49 ->
  same_f shape s s' \/ exists p c, type_msg E s mo id dlc data p c.
Proof.
  intros R H Hm -> Hc. apply step_sys in H; auto; [|eapply HwI_reached; eauto]. rewrite on_sys_eq in H. mbind H as e s1 H1.
  assert (same_f shape s1 s') as Sr. { revert H. match goal with |- ?m s1 = _ -> _ => enough (pres (same_f shape) m) as P by (intro H; exact (P _ _ _ H)) end. apply pres_report_if; [typeclasses eauto|]. intros; reflexivity. }
  unfold sys_msg_rx in H1. change (negb (8 =? 8)) with false in H1. cbv iota in H1. destruct (N.eqb_spec (id_nr id) NR_BROADCAST) as [Br|Br].
  - left. mbind H1 as n sx Hx. apply gets_inv in Hx. destruct Hx as [-> ->].
    assert (s1 = s) as ->; [|exact Sr]. destruct (nmod s =? 0)%nat; [apply ret_inv in H1; tauto|]. unfold sys_cmd in H1. mbind H1 as n sx Hx. apply gets_inv in Hx. destruct Hx as [-> ->]. change (b data 0) with (byte_at data 0) in H1. rewrite Hc in H1; cbn in H1; apply ret_inv in H1; tauto.
  - mbind H1 as tab sx Hx. apply gets_inv in Hx. destruct Hx as [-> ->]. rewrite find_nr_of in H1. destruct (entry_of_nr s (id_nr id)) as [p|] eqn:En; [|apply ret_inv in H1; destruct H1 as [_ ->]; left; exact Sr].
    pose proof (entry_lt _ _ _ En) as [Lp Qp]. unfold sys_cmd in H1. mbind H1 as n sx Hx. apply gets_inv in Hx. destruct Hx as [-> ->]. change (b data 0) with (byte_at data 0) in H1. rewrite Hc in H1. change (cmd_of 49) with CType in H1. cbv iota in H1.
    destruct (SERIAL E =? serial_of data) eqn:Se; [|apply ret_inv in H1; destruct H1 as [_ ->]; left; exact Sr].
    mbind H1 as e2 s2 H2. apply ret_inv in H1. destruct H1 as [_ ->]. apply change_type_inv in H2; [|exact Lp]. destruct H2 as [[-> _]|(c & C1 & C2 & _)]; [left; exact Sr|]. right. exists p, c.
    do 3 (split; [assumption || reflexivity|]). split; [exact Br|]. split; [exact En|]. rewrite serial_same. split; [exact Se|]. split; [exact C1|exact C2].
Qed.
Lemma type_msg_fun s mo id dlc data p c p' c' : type_msg E s mo id dlc data p c -> type_msg E s mo id dlc data p' c' -> p' = p /\ c' = c.
Proof. intros (_ & _ & _ & _ & A & _ & B & _) (_ & _ & _ & _ & A' & _ & B' & _). assert (p' = p) by congruence. subst. split; congruence. Qed.
Lemma type_effect pre mo id dlc data now s s' p c : reached E pre s -> step E (OpFrame mo id dlc data now) s = Ret (tt, s') -> type_msg E s mo id dlc data p c ->
  took_type c (modat s p) (modat s' p) /\ (forall q, q <> p -> modat s' q = modat s q) /\ k_silent (n_cfg s') = k_silent (n_cfg s) /\ nmod s' = nmod s /\
  n_mem s' = n_mem s /\ n_err s' = n_err s /\ n_hw s' = n_hw s /\ added s s' (match c_cb c with Some f => [EvType f (tl data)] | None => [] end).
Proof.
  intros R H (Hm & -> & Hc & Br & En & Se & Cg & St). apply step_sys in H; auto; [|eapply HwI_reached; eauto]. rewrite on_sys_eq in H. mbind H as e s1 H1.
  unfold sys_msg_rx in H1. change (negb (8 =? 8)) with false in H1. cbv iota in H1. apply N.eqb_neq in Br. unfold NR_BROADCAST in H1. rewrite Br in H1.
  mbind H1 as tab sx Hx. apply gets_inv in Hx. destruct Hx as [-> ->]. rewrite find_nr_of, En in H1.
  pose proof (entry_lt _ _ _ En) as [Lp Qp]. unfold sys_cmd in H1. mbind H1 as n sx Hx. apply gets_inv in Hx. destruct Hx as [-> ->]. change (b data 0) with (byte_at data 0) in H1. rewrite Hc in H1. change (cmd_of 49) with CType in H1. cbv iota in H1.
  rewrite serial_same in Se. rewrite Se in H1. mbind H1 as e2 s2 H2. apply ret_inv in H1. destruct H1 as [-> ->]. pose proof (rest_change _ _ _ _ _ H2) as (K1 & K2 & K3 & K4 & K5).
  assert (s' = s2) as ->. { apply report_if_inv in H. exact H. }
  apply change_type_inv in H2; [|exact Lp]. destruct H2 as [[_ Hn]|(c' & C1 & C2 & M1 & M2 & L)]; [rewrite (Hn c Cg) in St; discriminate|]. assert (c' = c) by congruence. subst c'.
  split; [rewrite M1; apply retype_took|]. split; [exact M2|]. split; [exact K4|]. split; [exact K5|]. repeat (split; [assumption|]). exact L.
Qed.
Lemma type_authorised pre mo id dlc data now s s' q : reached E pre s -> step E (OpFrame mo id dlc data now) s = Ret (tt, s') -> shape (modat s' q) <> shape (modat s q) -> exists c, type_msg E s mo id dlc data q c.
Proof.
  intros R H Hq. destruct (sys_mo E mo) eqn:Hm.
  2: { exfalso. apply Hq. apply shape_unchanged in H; [|rewrite Hm; discriminate]. apply (same_f_at shape _ _ q H). }
  destruct (N.eq_dec dlc 8) as [->|Nd].
  2: { exfalso. apply Hq. apply shape_unchanged in H; [|intros; congruence]. apply (same_f_at shape _ _ q H). }
  destruct (N.eq_dec (byte_at data 0) 49) as [Hc|Nc].
  2: { exfalso. apply Hq. apply shape_unchanged in H; [|intros; assumption]. apply (same_f_at shape _ _ q H). }
  destruct (type_step _ _ _ _ _ _ _ _ R H Hm eq_refl Hc) as [S|(p & c & T)]; [exfalso; apply Hq; apply (same_f_at shape _ _ q S)|].
  destruct (type_effect _ _ _ _ _ _ _ _ _ _ R H T) as (_ & O & _). destruct (Nat.eq_dec q p) as [->|Np]; [eauto|]. exfalso. apply Hq. rewrite (O q Np). reflexivity.
Qed.
End Type_.
