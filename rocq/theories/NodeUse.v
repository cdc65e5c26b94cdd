(** Message objects are taken and never given back: how many are left. *)
From Verif Require Import Words WordsFacts Bits ErrModel NodeModel NodeLib NodeInv NodeSpec NodeHw NodeCnt NodeSync NodeRx NodeSilent NodePres NodeSysP NodeTx NodeSend NodeNum NodeTxP NodeNr NodeImage NodeMo NodeCfg NodeUseSpec.

(** ** counting *)
Definition frees (l : list bool) : nat := length (filter negb l).
Lemma frees_le l l' : length l = length l' -> (forall i, nth i l false = true -> nth i l' false = true) -> (frees l' <= frees l)%nat.
Proof.
  revert l'. induction l as [|a l IH]; intros [|b l'] L H; cbn in L; try discriminate; [auto|]. injection L as L.
  assert (frees l' <= frees l)%nat as K by (apply IH; [exact L|]; intros i Hi; exact (H (S i) Hi)). unfold frees in *. cbn [filter].
  pose proof (H 0%nat) as H0. cbn in H0. destruct a, b; cbn [negb length]; try lia; exfalso; specialize (H0 eq_refl); discriminate.
Qed.
Lemma frees_lt l l' k : length l = length l' -> (forall i, nth i l false = true -> nth i l' false = true) -> (k < length l)%nat -> nth k l false = false -> nth k l' false = true -> (frees l' < frees l)%nat.
Proof.
  revert l' k. induction l as [|a l IH]; intros [|b l'] k L H Lk H1 H2; cbn in L; try discriminate; [cbn in Lk; lia|]. injection L as L. destruct k as [|k].
  - cbn in H1, H2. subst a b. assert (frees l' <= frees l)%nat as K by (apply frees_le; [exact L|]; intros i Hi; exact (H (S i) Hi)). unfold frees in *. cbn [filter negb length]. lia.
  - cbn in Lk. assert (frees l' < frees l)%nat as K by (apply (IH l' k); [exact L| |lia|exact H1|exact H2]; intros i Hi; exact (H (S i) Hi)). unfold frees in *. cbn [filter].
    pose proof (H 0%nat) as H0. cbn in H0. destruct a, b; cbn [negb length]; try lia; exfalso; specialize (H0 eq_refl); discriminate.
Qed.
Lemma frees_first l : forall i, frees l = 0%nat -> first_free l i = None.
Proof. induction l as [|a l IH]; intros i H; cbn; [reflexivity|]. unfold frees in *. cbn [filter] in H. destruct a; cbn in H; [apply IH, H|discriminate]. Qed.
Lemma first_frees l : forall i, (0 < frees l)%nat -> exists mo, first_free l i = Some mo.
Proof. induction l as [|a l IH]; intros i H; unfold frees in *; cbn in *; [lia|]. destruct a; cbn in H; [apply IH, H|eauto]. Qed.
Lemma frees_total l : (frees l <= length l)%nat.
Proof. unfold frees. induction l as [|[] l IH]; cbn; lia. Qed.
Lemma free_frees s : free_objects s = frees (h_used (n_hw s)).
Proof.
  unfold free_objects, taken. assert (forall l pre, length (filter (fun mo => negb (nth mo (pre ++ l) false)) (seq (length pre) (length l))) = frees l) as K; [|exact (K (h_used (n_hw s)) [])].
  induction l as [|a l IH]; intro pre; [reflexivity|]. cbn [length seq filter]. rewrite nth_middle. unfold frees in *. cbn [filter]. specialize (IH (pre ++ [a])). rewrite <- app_assoc, app_length in IH. cbn [app length] in IH. rewrite Nat.add_1_r in IH.
  destruct a; cbn [negb length]; rewrite IH; reflexivity.
Qed.

(** ** used flags only grow, in every operation *)
Definition ugrow (s s' : node) : Prop := forall mo, used s mo = true -> used s' mo = true.
#[export] Instance pre_ugrow : Pre ugrow.
Proof. split; [intros s mo; auto|]. intros a b c H1 H2 mo H. auto. Qed.
Ltac ug_leaf := intros ? ?; unfold used, upd_hw, upd_mod, upd_cfg, upd_tx in *; cbn; auto using set_nth_true_grow.

Section Use.
Context (E : env) (HE : env_ok E).
Lemma ug_grows A (m : M A) : pres grows m -> pres ugrow m.
Proof. apply pres_weaken. intros s s' [H _]. exact H. Qed.
Lemma ug_rx_slot pos nr i : pres ugrow (rx_slot E pos nr i).
Proof. unfold rx_slot, next_free, rx_data_cnfg. repeat ((simple apply ug_grows; simple apply grows_define_obj) || pres_tac1); ug_leaf. Qed.
Lemma ug_add d nr rxs txs : pres ugrow (add_module E d nr rxs txs).
Proof.
  unfold add_module, set_module. repeat (simple apply ug_rx_slot || (simple apply ug_grows; simple apply grows_define_shared) || (simple apply ug_grows; simple apply grows_tx_data_cnfg) || pres_tac1); ug_leaf.
Qed.
Lemma ug_step o : pres ugrow (step E o).
Proof.
  destruct o; cbn [step]; unfold ignore.
  2: { repeat (simple apply ug_add || pres_tac1). }
  all: simple apply ug_grows; unfold set_silent_awake_type_nr, set_image_cb, trigger_period, get_period, change_type_add, set_cycle_time;
  repeat (simple apply grows_frame_rx || simple apply grows_set_silent_awake || simple apply grows_set_active_critical || simple apply grows_change_nr_ids
   || simple apply grows_set_node_mode || simple apply grows_set_baudrate || pres_tac1); grows_leaf.
Qed.
Lemma use_step o s s' : WF E s -> step E o s = Ret (tt, s') -> (free_objects s' <= free_objects s)%nat.
Proof.
  intros W H. pose proof (wf_step E _ _ _ _ H W) as W'. rewrite !free_frees. apply frees_le; [|exact (ug_step o _ _ _ H)].
  destruct W as (_ & _ & (W & _) & _), W' as (_ & _ & (W' & _) & _). congruence.
Qed.
Lemma wf_nr_ids type new actual s e s' : WF E s -> change_nr_ids E type new actual s = Ret (e, s') -> WF E s'.
Proof.
  intros W H. assert (step E (OpSetNr type new actual) s = Ret (tt, s')) as Hs by (cbn [step]; unfold ignore, bind; rewrite H; reflexivity). exact (wf_step E _ _ _ _ Hs W).
Qed.
Lemma len_used s : WF E s -> length (h_used (n_hw s)) = NMSG E.
Proof. intros (_ & _ & (W & _) & _). exact W. Qed.
Lemma for_err_lt (R : node -> node -> Prop) `{Pre R} n f : forall i, (forall j, (i <= j < i + n)%nat -> pres R (f j)) -> pres R (for_err n i f).
Proof.
  induction n as [|n IH]; intros i Hf; cbn [for_err]; [pres_tac|]. refine (pres_bind _ _ _ _ _); [apply Hf; lia|]. intro e. destruct (e =? ERR_OK); [|pres_tac]. apply IH. intros j Hj. apply Hf. lia.
Qed.
(** the state before the shared objects are defined *)
Definition nr_front (pos : nat) (m : modl) (new : N) : M N :=
  for_err (m_ntx m) 0 (fun i => tx_data_cnfg E pos i new) >>> for_err (m_nrx m) 0 (redef E m new).
Lemma nr_split type new actual s p : named s type actual = Some p -> 
  change_nr_ids E type new actual s =
  (let sa := upd_mod p (fun m => set_m_nr m new) s in
   (nr_front p (modat sa p) new >>> (tab' <- gets tab_of ;; n <- gets nmod ;; define_shared E p p new (mask_of (map m_nr (firstn n tab'))))) sa).
Proof.
  intro H. unfold change_nr_ids at 1. unfold bind at 1, gets at 1. rewrite find_type_nr_named, H. unfold bind at 1, modify at 1. unfold bind at 1, gets at 1. cbv zeta. unfold nr_front. rewrite <- andthen_assoc. reflexivity.
Qed.
Definition front (s s' : node) : Prop := WFR E s s' /\ HwR E s s' /\ ugrow s s'.
#[local] Instance pre_front : Pre front.
Proof. split; [intro s; split; [apply pre_refl|split; apply pre_refl]|]. intros a b c (A1 & A2 & A3) (B1 & B2 & B3). split; [eapply pre_trans; eauto|]. split; eapply pre_trans; eauto. Qed.
Lemma front_pres A (m : M A) : pres (WFR E) m -> pres grows m -> pres front m.
Proof. intros H1 H2 s a s' H. split; [exact (H1 _ _ _ H)|]. split; [apply grows_HwR; exact (H2 _ _ _ H)|exact (proj1 (H2 _ _ _ H))]. Qed.
Lemma front_nr p m new : pres front (nr_front p m new).
Proof.
  unfold nr_front. refine (pres_andthen _ _ _ _ _); apply pres_for_err; try typeclasses eauto; intro j; apply front_pres.
  - apply wf_tx_data_cnfg.
  - apply grows_tx_data_cnfg.
  - apply wf_define_obj.
  - apply grows_define_obj.
Qed.
(** a successful number change takes an object *)
Lemma nr_takes type new actual s s' : WF E s -> HwI E s -> ASY E = true -> change_nr_ids E type new actual s = Ret (ERR_OK, s') -> (free_objects s' < free_objects s)%nat.
Proof.
  intros W I As H. pose proof (wf_nr_ids _ _ _ _ _ _ W H) as W'. pose proof (ug_grows _ _ (grows_change_nr_ids E type new actual) _ _ _ H) as G.
  destruct (named s type actual) as [p|] eqn:Hn. 2: { unfold change_nr_ids, bind, gets in H. rewrite find_type_nr_named, Hn in H. discriminate. }
  rewrite (nr_split _ _ _ _ _ Hn) in H. cbv zeta in H. set (sa := upd_mod p (fun m => set_m_nr m new) s) in *.
  assert (WF E sa) as Wa by (revert W; apply wf_upd_mod; intros x Hx; exact Hx).
  apply andthen_inv in H. destruct H as (sc & Hc & H). apply front_nr in Hc. destruct Hc as (Wc & Ic & Uc). specialize (Wc Wa). specialize (Ic I).
  mbind H as tab' sx Hx. apply gets_inv in Hx. destruct Hx as [-> ->]. mbind H as n sx Hx. apply gets_inv in Hx. destruct Hx as [-> ->].
  rewrite define_shared_eq in H. apply andthen_inv in H. destruct H as (sd & Hd & H).
  apply (shared_ok E HE) in Hd; auto. destruct Hd as [_ Hd]. destruct (Hd As) as (_ & U1 & U2 & _).
  mbind H as st sx Hx. apply gets_inv in Hx. destruct Hx as [-> ->]. apply grows_set_silent_awake in H. destruct H as [H _].
  set (mo := ctl_mo sd p) in *. assert (used s mo = false) as U0. { destruct (used s mo) eqn:Q; [|reflexivity]. apply (Uc mo) in Q. congruence. }
  assert (used s' mo = true) as U3 by (apply H; exact U2).
  rewrite !free_frees. apply (frees_lt _ _ mo); [rewrite !len_used; auto|exact G| |exact U0|exact U3].
  rewrite (len_used _ W). unfold used in U3. rewrite <- (len_used _ W'). destruct (Nat.lt_ge_cases mo (length (h_used (n_hw s')))) as [L|L]; [exact L|]. rewrite nth_overflow in U3 by exact L. discriminate.
Qed.
Lemma changed_inv s n s' : WF E s -> HwI E s -> ASY E = true -> changed E s n s' -> WF E s' /\ HwI E s' /\ (n + free_objects s' <= free_objects s)%nat.
Proof.
  intros W I As H. induction H as [|n s1 o s2 H IH H1|n s1 type new actual s2 H IH H1].
  - split; [exact W|split; [exact I|lia]].
  - destruct IH as (W1 & I1 & L). split; [exact (wf_step E _ _ _ _ H1 W1)|]. split; [exact (HwR_step E _ _ _ _ H1 I1)|]. pose proof (use_step _ _ _ W1 H1). lia.
  - destruct IH as (W1 & I1 & L). pose proof (nr_takes _ _ _ _ _ W1 I1 As H1). split; [eapply wf_nr_ids; eauto|]. split; [|lia].
    assert (step E (OpSetNr type new actual) s1 = Ret (tt, s2)) as Hs by (cbn [step]; unfold ignore, bind; rewrite H1; reflexivity). exact (HwR_step E _ _ _ _ Hs I1).
Qed.
(** no object left: the change stops half way *)
Definition keepfix (s s' : node) : Prop := forall k, In k (fixed_mo E) -> filt s' k = filt s k.
#[local] Instance pre_keepfix : Pre keepfix.
Proof. split; [intros s k _; reflexivity|]. intros a b c H1 H2 k Hk. rewrite H2, H1 by exact Hk. reflexivity. Qed.
Lemma keepfix_front p m new : (forall i, (i < m_nrx m)%nat -> ~ In (r_mo (rxat m i)) (fixed_mo E)) -> pres keepfix (nr_front p m new).
Proof.
  intro Hm. unfold nr_front. refine (pres_andthen _ _ _ _ _); apply for_err_lt; try typeclasses eauto; intros j Hj.
  - unfold tx_data_cnfg. pres_tac. intros k _. reflexivity.
  - intros s e s' H k Hk. apply (define_obj_full E HE) in H. destruct H as (_ & _ & _ & F & _). apply F. intros ->. exact (Hm j (proj2 Hj) Hk).
Qed.
Lemma nr_stuck type new actual s e s' p : WF E s -> CtlI E s -> ASY E = true -> named s type actual = Some p -> complete E s p -> free_objects s = 0%nat ->
  change_nr_ids E type new actual s = Ret (e, s') -> e <> ERR_OK /\ m_nr (modat s' p) = new /\ keepfix s s'.
Proof.
  intros W I As Hn C F H. pose proof (nr_ids_numbers E _ _ _ _ _ _ _ Hn H p) as Nr. rewrite Nat.eqb_refl in Nr. split; [|split; [exact Nr|]].
  { intros ->. apply nr_takes in H; auto; [lia|apply I]. }
  rewrite (nr_split _ _ _ _ _ Hn) in H. cbv zeta in H. pose proof Hn as Hs. apply named_spec in Hs. destruct Hs as (Lp & _).
  set (sa := upd_mod p (fun m => set_m_nr m new) s) in *.
  assert (modat sa p = set_m_nr (modat s p) new) as Ma by (unfold sa; rewrite modat_upd_mod by exact Lp; rewrite Nat.eqb_refl; reflexivity).
  assert (WF E sa) as Wa by (revert W; apply wf_upd_mod; intros x Hx; exact Hx).
  intros k Hk. change (filt s k) with (filt sa k). unfold andthen in H at 1. mbind H as e1 sc Hc.
  assert (keepfix sa sc) as Kc. { refine (keepfix_front p _ new _ _ _ _ Hc). rewrite Ma. intros i Hi. exact (proj1 (not_fixed E s p I C) i Hi). }
  rewrite <- (Kc k Hk). apply front_nr in Hc. destruct Hc as (Wc & Ic & Uc). specialize (Wc Wa).
  destruct (e1 =? ERR_OK); [|apply ret_inv in H; destruct H as [_ ->]; reflexivity].
  mbind H as tab' sx Hx. apply gets_inv in Hx. destruct Hx as [-> ->]. mbind H as n sx Hx. apply gets_inv in Hx. destruct Hx as [-> ->].
  assert (frees (h_used (n_hw sc)) = 0%nat) as Fc.
  { rewrite free_frees in F. assert (frees (h_used (n_hw sc)) <= frees (h_used (n_hw s)))%nat; [|lia]. apply frees_le; [rewrite (len_used _ W), (len_used _ Wc); reflexivity|exact Uc]. }
  rewrite define_shared_eq in H. unfold shared_objs in H. rewrite As in H. unfold get_async_ctrl_obj, next_free in H.
  unfold andthen, bind, gets in H. destruct (MAXM E <=? p)%nat; [|cbv beta iota in H; rewrite (frees_first _ _ Fc) in H]; cbn in H; injection H as _ <-; reflexivity.
Qed.

(** ** with an object left and hardware that accepts everything, a number change succeeds *)
Definition easy (u : list bool) (k : list N) (s : node) : Prop := n_orc s = [] /\ h_used (n_hw s) = u /\ k_silent (n_cfg s) = k.
Lemma easy_define mo id mask dlc rx sv sy s u k : easy u k s -> (mo < NMSG E)%nat -> id <= 2047 -> dlc <= 8 ->
  exists s', define_obj E mo id mask dlc rx sv sy s = Ret (ERR_OK, s') /\ easy (set_nth u mo true) k s'.
Proof.
  intros (O & U & K) Lm Li Ld. unfold define_obj. assert (u8 dlc = dlc) as -> by (unfold u8; apply N.mod_small; lia).
  apply Nat.ltb_lt in Lm. apply N.ltb_ge in Li. apply N.ltb_ge in Ld. rewrite Lm, Li, Ld. cbn [negb]. rewrite !andb_false_r.
  unfold hw_define. rewrite Lm. unfold andthen, bind, guard, modify, ask, ret. cbv beta iota.
  change (n_orc (upd_hw (fun h => set_h_used h (set_nth (h_used h) mo true)) s)) with (n_orc s). rewrite O. cbv beta iota. change (ERR_OK =? ERR_OK) with true. cbv iota.
  destruct sv; [|destruct sy| |]; eexists; (split; [reflexivity|]); unfold easy, upd_hw; cbn; rewrite U; auto.
Qed.
Lemma easy_loop u k n f : forall i s, easy u k s -> (forall j s, (i <= j < i + n)%nat -> easy u k s -> exists s', f j s = Ret (ERR_OK, s') /\ easy u k s') -> exists s', for_err n i f s = Ret (ERR_OK, s') /\ easy u k s'.
Proof.
  induction n as [|n IH]; intros i s Hs Hf; cbn [for_err]; [exists s; auto|]. destruct (Hf i s) as (s1 & H1 & E1); [lia|exact Hs|]. unfold bind. rewrite H1. change (ERR_OK =? ERR_OK) with true. cbv iota.
  apply IH; [exact E1|]. intros j sj Hj. apply Hf. lia.
Qed.
Lemma easy_then u k u' k' m1 m2 s : (exists s', m1 s = Ret (ERR_OK, s') /\ easy u k s') -> (forall s', easy u k s' -> exists s'', m2 s' = Ret (ERR_OK, s'') /\ easy u' k' s'') -> exists s', (m1 >>> m2) s = Ret (ERR_OK, s') /\ easy u' k' s'.
Proof. intros (s1 & H1 & E1) H. destruct (H s1 E1) as (s2 & H2 & E2). exists s2. split; [|exact E2]. unfold andthen, bind. rewrite H1. exact H2. Qed.
Lemma ret_for_do n f : (forall j s, exists s', f j s = Ret (tt, s')) -> forall i s, exists s', for_do n i f s = Ret (tt, s').
Proof. intro Hf. induction n as [|n IH]; intros i s; cbn [for_do]; [eexists; reflexivity|]. destruct (Hf i s) as (s1 & H1). unfold bind. rewrite H1. apply IH. Qed.
Lemma awake_ok p s : (p < MAXM E)%nat -> exists s', set_silent_awake E p AWAKE s = Ret (ERR_OK, s').
Proof.
  intro L. unfold set_silent_awake. apply Nat.ltb_lt in L. rewrite L. unfold bind at 1, modify at 1. unfold bind at 1, gets at 1. unfold bind at 1, gets at 1.
  set (s1 := upd_cfg _ s). set (cb := k_silcb _). set (m := modat s1 p). change (AWAKE =? SILENT) with false. change (AWAKE =? AWAKE) with true. cbv iota.
  assert (exists s2, emit_cb cb (fun c => EvSilent c p (m_type m) (m_nr m) AWAKE) s1 = Ret (tt, s2)) as (s2 & H2) by (unfold emit_cb; destruct cb; eexists; reflexivity).
  unfold bind at 1. rewrite H2. assert (exists s3, sync_on p s2 = Ret (tt, s3)) as (s3 & H3); [|exists s3; unfold bind; rewrite H3; reflexivity].
  unfold sync_on. unfold bind at 1, gets at 1. unfold bind at 1, modify at 1. match goal with |- exists s3, bind (for_do ?n 0 ?f) ?k ?x = _ => destruct (ret_for_do n f (fun j s => ex_intro _ _ eq_refl) 0%nat x) as (s4 & H4) end.
  unfold bind at 1. rewrite H4. unfold bind at 1, modify at 1. apply ret_for_do. intros j sj. eexists. reflexivity.
Qed.
Lemma ident_small base nr i : base <= 1536 -> 1 <= nr <= 128 -> (i < 4)%nat -> can_ident base nr i <= 2047.
Proof. intros B H L. unfold can_ident, u16. replace (base + (nr + 65535) * 4 + N.of_nat i) with ((base + (nr - 1) * 4 + N.of_nat i) + 4 * 65536) by lia. rewrite N.mod_add by lia. rewrite N.mod_small; lia. Qed.
Lemma set_nth_same (u : list bool) mo : nth mo u false = true -> set_nth u mo true = u.
Proof. revert mo. induction u as [|a u IH]; intros [|mo] H; cbn in *; try discriminate; [subst; reflexivity|]. rewrite IH by exact H. reflexivity. Qed.
Lemma nr_possible type new actual s p : WF E s -> CtlI E s -> named s type actual = Some p -> complete E s p -> n_orc s = [] -> silat s p = AWAKE -> 1 <= new <= 128 ->
  (forall i, (i < m_nrx (modat s p))%nat -> r_dlc (rxat (modat s p) i) <= 8) -> (ASY E = true -> (0 < free_objects s)%nat) ->
  exists s', change_nr_ids E type new actual s = Ret (ERR_OK, s').
Proof.
  intros W [I Ic] Hn C O Sl Hnew Hd Fr. rewrite (nr_split _ _ _ _ _ Hn). cbv zeta. pose proof Hn as Hs. apply named_spec in Hs. destruct Hs as (Lp & _).
  set (sa := upd_mod p (fun m => set_m_nr m new) s) in *.
  assert (modat sa p = set_m_nr (modat s p) new) as Ma by (unfold sa; rewrite modat_upd_mod by exact Lp; rewrite Nat.eqb_refl; reflexivity).
  assert (p < MAXM E)%nat as Lm by (rewrite <- (tab_len E s W); exact Lp).
  pose proof (modat_ok E s p W) as Mo.
  set (u := h_used (n_hw s)). set (k := k_silent (n_cfg s)).
  assert (easy u k sa) as E0 by (unfold easy, u, k; cbn; auto).
  assert (exists sc, nr_front p (modat sa p) new sa = Ret (ERR_OK, sc) /\ easy u k sc) as (sc & Hc & Ec).
  { unfold nr_front. rewrite Ma. cbn [m_ntx m_nrx set_m_nr]. apply (easy_then u k).
    - apply easy_loop; [exact E0|]. intros j sj Hj Ej. unfold tx_data_cnfg. destruct (MAXM E <=? p)%nat eqn:Q; [apply Nat.leb_le in Q; lia|]. destruct (NOBJ <=? j)%nat eqn:Q2; [apply Nat.leb_le in Q2; unfold modok in Mo; lia|].
      eexists. split; [reflexivity|]. exact Ej.
    - intros sb Eb. apply easy_loop; [exact Eb|]. intros j sj Hj Ej. assert (j < m_nrx (modat s p))%nat as Lj by lia.
      destruct C as (_ & Cr & _). destruct (Cr j Lj) as (R1 & _). apply (in_map fst) in R1. destruct I as (_ & I2 & _). destruct (I2 _ R1) as [U _]. cbn [fst] in U. unfold used in U. fold u in U.
      assert (rx_mo s p j < NMSG E)%nat as Lr. { rewrite <- (len_used _ W). fold u. destruct (Nat.lt_ge_cases (rx_mo s p j) (length u)) as [L|L]; [exact L|]. rewrite nth_overflow in U by exact L. discriminate. }
      unfold redef. cbv zeta. rewrite <- (set_nth_same u (rx_mo s p j) U). apply easy_define; auto; [apply ident_small; auto|apply Hd, Lj].
      + unfold BASE_RX. lia.
      + unfold modok, NOBJ in Mo. lia. }
  unfold andthen at 1, bind at 1. rewrite Hc. change (ERR_OK =? ERR_OK) with true. cbv iota.
  unfold bind at 1, gets at 1. unfold bind at 1, gets at 1. rewrite define_shared_eq. set (mask := mask_of _).
  assert (exists sd u', shared_objs E p new mask sc = Ret (ERR_OK, sd) /\ easy u' k sd) as (sd & u' & Hd' & (Od & Ud & Kd)).
  { destruct HE as (_ & (HN & _) & _). 
    assert (forall x y, easy x y sc -> exists u1 sd, (if ASY E then (r <- get_async_ctrl_obj E p;; match r with (Some mo, _) => define_obj E mo (can_ident BASE_CTRL_RX new 0) MASK_ONE 8 true SvAsyncCtrl false | (None, e) => ret e end) >>>
        define_obj E MO_ASYNC_DATA BASE_DATA_RX (N.lor MASK_CLASS mask) 8 true SvAsync false else ret ERR_OK) sc = Ret (ERR_OK, sd) /\ easy u1 y sd) as A.
    { intros x y Exy. destruct (ASY E) eqn:As; [|exists x, sc; split; [reflexivity|exact Exy]].
      assert (exists u2 s2, (r <- get_async_ctrl_obj E p;; match r with (Some mo, _) => define_obj E mo (can_ident BASE_CTRL_RX new 0) MASK_ONE 8 true SvAsyncCtrl false | (None, e) => ret e end) sc = Ret (ERR_OK, s2) /\ easy u2 y s2) as (u2 & s2 & H2 & E2).
      { unfold get_async_ctrl_obj. destruct (MAXM E <=? p)%nat eqn:Q; [apply Nat.leb_le in Q; lia|]. unfold next_free, bind, gets. specialize (Fr eq_refl). rewrite free_frees in Fr. fold u in Fr.
        destruct Ec as (_ & Uc & _). destruct (first_frees _ 0%nat Fr) as (mo & Hmo). rewrite Uc, Hmo. cbv beta iota. unfold modify, ret. cbv beta iota.
        apply first_free_spec in Hmo. rewrite Nat.sub_0_r in Hmo. destruct Hmo as (_ & _ & Lmo). unfold u in Lmo. rewrite (len_used _ W) in Lmo.
        edestruct (easy_define mo (can_ident BASE_CTRL_RX new 0) MASK_ONE 8 true SvAsyncCtrl false (upd_cfg (fun k => set_k_actrl k (set_nth (k_actrl k) p mo)) sc) x y) as (s2 & H2 & E2).
        - exact Exy.
        - exact Lmo.
        - apply ident_small; auto; unfold BASE_CTRL_RX; lia.
        - lia.
        - exists (set_nth x mo true), s2. split; [exact H2|exact E2]. }
      destruct (easy_define MO_ASYNC_DATA BASE_DATA_RX (N.lor MASK_CLASS mask) 8 true SvAsync false s2 u2 y E2) as (s3 & H3 & E3); [unfold MO_ASYNC_DATA; lia|unfold BASE_DATA_RX; lia|lia|].
      exists (set_nth u2 MO_ASYNC_DATA true), s3. split; [|exact E3]. unfold andthen, bind at 1. rewrite H2. exact H3. }
    destruct (A u k Ec) as (u1 & s1 & H1 & E1). destruct (easy_define MO_SYS1 ID_SYS (N.lor MASK_CLASS mask) 8 true SvRx false s1 u1 k E1) as (s2 & H2 & E2); [unfold MO_SYS1; lia|unfold ID_SYS; lia|lia|].
    unfold shared_objs. unfold andthen at 1, bind at 1. rewrite H1. change (ERR_OK =? ERR_OK) with true. cbv iota. unfold andthen, bind. rewrite H2. change (ERR_OK =? ERR_OK) with true. cbv iota.
    destruct (SYS2 E); [|exists s2; eexists; split; [reflexivity|exact E2]].
    destruct (easy_define MO_SYS2 ID_SYS (N.lor MASK_CLASS mask) 8 true SvRx false s2 _ k E2) as (s3 & H3 & E3); [unfold MO_SYS2; lia|unfold ID_SYS; lia|lia|]. exists s3. eexists. split; [exact H3|exact E3]. }
  unfold andthen, bind at 1. rewrite Hd'. change (ERR_OK =? ERR_OK) with true. cbv iota. unfold bind, gets.
  assert (silat sd p = AWAKE) as -> by (unfold silat; rewrite Kd; exact Sl). apply awake_ok, Lm.
Qed.
End Use.
