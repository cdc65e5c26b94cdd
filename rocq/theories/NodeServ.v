(** The receive path hands every frame to one service (C84). *)
From Verif Require Import Words WordsFacts Bits ErrModel NodeModel NodeLib NodeInv NodeSpec NodeHw NodeCnt NodeSync NodeRx NodeSilent NodePres NodeSysP NodeTx NodeNum NodeTxP NodeNr NodeMo NodeCfg NodeServModel NodeServSpec NodeImage NodeUse.

Section Serv.
Variable E : env.
Hypothesis HE : env_ok E.

Lemma ctl_test mo s : (mo < 32)%nat -> negb (N.land (bit mo) (h_mask_ctrl (n_hw s)) =? 0) = is_ctl s mo.
Proof.
  intro L. unfold is_ctl. rewrite (bit_pow _ L). destruct (N.testbit (h_mask_ctrl (n_hw s)) (N.of_nat mo)) eqn:T.
  - apply negb_true_iff, N.eqb_neq. intro Z. assert (N.testbit (N.land (2 ^ N.of_nat mo) (h_mask_ctrl (n_hw s))) (N.of_nat mo) = false) as Q by (rewrite Z; apply N.bits_0).
    rewrite N.land_spec, T, N.pow2_bits_true in Q. discriminate.
  - apply negb_false_iff, N.eqb_eq. apply N.bits_inj. intro k. rewrite N.land_spec, N.bits_0. destruct (N.eq_dec k (N.of_nat mo)) as [->|Nk]; [rewrite T; apply andb_false_r|].
    rewrite N.pow2_bits_false by congruence. reflexivity.
Qed.
Lemma map_const {A B} (x : B) (l : list A) : map (fun _ => x) l = repeat x (length l).
Proof. induction l; cbn; [reflexivity|f_equal; assumption]. Qed.

(** what the asynchronous handlers do in state [s] *)
Definition handed_out (s : node) (mo : nat) (id dlc : N) (data : list byte) : list handed :=
  if ASY E then (if is_ctl s mo then repeat (HCtl (ctl_nr id) data) (length (filter (Nat.eqb mo) (k_actrl (n_cfg s)))) else []) ++ tunnel_rx mo dlc data else [].
Lemma main_rx_eq mo id dlc data now s : (mo < 32)%nat -> dlc <= 8 ->
  main_rx E false mo id dlc data now s =
  match frame_rx E mo id dlc data now s with Ret (_, s') => Ret (handed_out s' mo id dlc data, s') | Undef => Undef | Hang => Hang end.
Proof.
  intros Lm Ld. unfold main_rx, guard. destruct (N.leb_spec dlc 8); [|lia]. unfold bind at 1, ret at 1. unfold bind at 1. destruct (frame_rx E mo id dlc data now s) as [[u s']| |]; [|reflexivity|reflexivity].
  unfold handed_out, async_rx. destruct (ASY E); unfold bind, gets, ret; [|reflexivity]. rewrite (ctl_test _ _ Lm). destruct (is_ctl s' mo); [rewrite map_const|]; reflexivity.
Qed.
Lemma sys_mo_eq mo : sys_mo E mo = ((mo =? MO_SYS1)%nat || SYS2 E && (mo =? MO_SYS2)%nat).
Proof. reflexivity. Qed.
Lemma sys_reserved mo : sys_mo E mo = true -> In mo (reserved E).
Proof.
  rewrite sys_mo_eq. intro H. apply orb_prop in H. unfold reserved. destruct H as [H|H].
  - apply Nat.eqb_eq in H. subst. right. left. reflexivity.
  - apply andb_prop in H. destruct H as [-> H]. apply Nat.eqb_eq in H. subst. apply in_or_app. right. left. reflexivity.
Qed.
Lemma owner_in s mo p : owner s mo = Some p -> In mo (map fst (h_rxtab (n_hw s))).
Proof.
  unfold owner. destruct (find _ _) as [[a q]|] eqn:F; [|discriminate]. intros _. apply find_some in F. destruct F as [F1 F2]. apply Nat.eqb_eq in F2. cbn in F2. subst a.
  apply in_map_iff. exists (mo, q). auto.
Qed.
Lemma tun_not mo s dlc data : mo <> MO_ASYNC_DATA -> is_ctl s mo = false -> forall id, handed_out s mo id dlc data = [].
Proof.
  intros N C id. unfold handed_out, tunnel_rx. rewrite C. destruct (Nat.eqb_spec mo MO_ASYNC_DATA); [contradiction|]. destruct (ASY E); reflexivity.
Qed.
Lemma sys_not_other mo : sys_mo E mo = true -> mo <> MO_PROCESS /\ mo <> MO_ASYNC_DATA.
Proof.
  rewrite sys_mo_eq. intro H. apply orb_prop in H. destruct H as [H|H]; [|apply andb_prop in H; destruct H as [_ H]]; apply Nat.eqb_eq in H; subst; split; discriminate.
Qed.
Lemma not_ctl s mo : CtlI E s -> In mo (reserved E) -> is_ctl s mo = false.
Proof. intros I Hr. destruct (is_ctl s mo) eqn:C; [|reflexivity]. apply I in C. tauto. Qed.
Lemma data_silent s mo id dlc data : owner s mo = None -> (if is_sync_mo mo s then on_data E mo id dlc data else ret tt) s = Ret (tt, s).
Proof.
  intro O. destruct (is_sync_mo mo s); [|reflexivity]. unfold on_data, bind, gets. rewrite NodeCfg.find_slot_owner. unfold owner in O. rewrite O. reflexivity.
Qed.

Lemma one_service pre s mo id dlc data now : reached E pre s -> (mo < NMSG E)%nat -> dlc <= 8 ->
  let out := main_rx E false mo id dlc data now s in
  out = Ret ([], s) \/
  (exists p, owner s mo = Some p /\ out = (rx_data_main E p id dlc data ;;; ret []) s) \/
  (mo = MO_PROCESS /\ out = (on_process E dlc now ;;; ret []) s) \/
  (sys_mo E mo = true /\ out = (on_sys E id dlc data ;;; ret []) s) \/
  (is_ctl s mo = true /\ exists n, out = Ret (repeat (HCtl (ctl_nr id) data) n, s)) \/
  (mo = MO_ASYNC_DATA /\ out = Ret ([HTunnel dlc data], s)).
Proof.
  intros R Lm Ld. pose proof (CtlI_reached E HE _ _ R) as I. assert (mo < 32)%nat as L by (destruct HE as (_ & H & _); lia).
  cbv zeta. rewrite main_rx_eq by assumption.
  assert (forall s', frame_rx E mo id dlc data now s = Ret (tt, s') -> CtlI E s') as Is'.
  { intros s' H. eapply (CtlI_reached E HE). eapply (reached_step E _ (OpFrame mo id dlc data now)); [exact R|]. exact H. }
  destruct (owner s mo) as [p|] eqn:O.
  - pose proof (owner_in _ _ _ O) as Oi. destruct I as ((I1 & I2 & I3) & I4). destruct (I2 _ Oi) as [_ Nr].
    assert (mo <> MO_PROCESS /\ mo <> MO_ASYNC_DATA \/ mo = MO_ASYNC_DATA /\ ASY E = false) as Nx.
    { assert (mo <> MO_PROCESS) by (intros ->; apply Nr; left; reflexivity). destruct (Nat.eq_dec mo MO_ASYNC_DATA) as [->|]; [|left; split; assumption]. destruct (ASY E) eqn:A; [|right; split; reflexivity].
      exfalso. apply Nr. unfold reserved. rewrite A. apply in_or_app. right. apply in_or_app. right. left. reflexivity. }
    assert (mo <> MO_PROCESS) as Np by (destruct Nx as [[]|[-> _]]; [assumption|discriminate]).
    assert (sys_mo E mo = false) as Ns by (destruct (sys_mo E mo) eqn:Q; [apply sys_reserved in Q; contradiction|reflexivity]).
    assert (forall s', CtlI E s' -> In mo (map fst (h_rxtab (n_hw s'))) -> handed_out s' mo id dlc data = []) as Hd.
    { intros s' J Hin. destruct Nx as [[_ Na]|[_ As]]; [|unfold handed_out; rewrite As; reflexivity]. apply tun_not; auto. destruct (is_ctl s' mo) eqn:C; [|reflexivity]. apply J in C. tauto. }
    assert (forall u s', frame_rx E mo id dlc data now s = Ret (u, s') -> h_rxtab (n_hw s') = h_rxtab (n_hw s)) as Keep.
    { intros u s' H. assert (pres (fun a c => h_rxtab (n_hw c) = h_rxtab (n_hw a)) (step E (OpFrame mo id dlc data now))) as P.
      { apply (kernel_step E); try (split; [reflexivity|congruence]); try (intros; reflexivity). cbn [kernel]. rewrite <- sys_mo_eq, Ns. discriminate. }
      exact (P _ _ _ H). }
    unfold frame_rx in *. rewrite <- sys_mo_eq in *. rewrite Ns in *. destruct (Nat.eqb_spec mo MO_PROCESS) as [|_]; [contradiction|].
    destruct (is_sync_mo mo s) eqn:Sy.
    + right. left. exists p. split; [reflexivity|]. revert Keep Is'. unfold bind, gets, ret. rewrite Sy. unfold on_data, bind, gets. rewrite NodeCfg.find_slot_owner. unfold owner in O. rewrite O.
      destruct (rx_data_main E p id dlc data s) as [[e s1]| |]; [|reflexivity|reflexivity]. unfold ret. intros Keep Is'. f_equal. f_equal. apply Hd; [apply Is'; reflexivity|]. rewrite (Keep tt s1 eq_refl). exact Oi.
    + left. revert Keep Is'. unfold bind, gets, ret. rewrite Sy. intros Keep Is'. f_equal. f_equal. apply Hd; [apply Is'; reflexivity|exact Oi].
  - unfold frame_rx in *. rewrite <- sys_mo_eq in *. pose proof (data_silent s mo id dlc data O) as Dn.
    destruct (Nat.eqb_spec mo MO_PROCESS) as [->|Np].
    + right. right. left. split; [reflexivity|]. revert Is'. unfold bind, gets. rewrite Dn. change (sys_mo E MO_PROCESS) with (SYS2 E && (MO_PROCESS =? MO_SYS2)%nat). change (MO_PROCESS =? MO_SYS2)%nat with false. rewrite andb_false_r.
      unfold ret. destruct (on_process E dlc now s) as [[[] s1]| |]; [|reflexivity|reflexivity]. intros Is'. f_equal. f_equal. apply tun_not; [discriminate|]. apply not_ctl; [apply Is'; reflexivity|left; reflexivity].
    + destruct (sys_mo E mo) eqn:Sm.
      * right. right. right. left. split; [reflexivity|]. revert Is'. unfold bind, gets. rewrite Dn. unfold ret. destruct (on_sys E id dlc data s) as [[[] s1]| |]; [|reflexivity|reflexivity].
        intros Is'. f_equal. f_equal. apply tun_not; [apply (sys_not_other _ Sm)|]. apply not_ctl; [apply Is'; reflexivity|apply sys_reserved, Sm].
      * assert ((sy <- gets (is_sync_mo mo);; (if sy then on_data E mo id dlc data else ret tt);;; ret tt;;; ret tt) s = Ret (tt, s)) as -> by (unfold bind, gets; rewrite Dn; reflexivity).
        destruct (is_ctl s mo) eqn:C.
        -- right. right. right. right. left. split; [reflexivity|]. unfold handed_out. rewrite C. assert (tunnel_rx mo dlc data = [] \/ ASY E = false) as T.
           { destruct (ASY E) eqn:A; [left|right; reflexivity]. unfold tunnel_rx. destruct (Nat.eqb_spec mo MO_ASYNC_DATA) as [->|]; [|reflexivity]. exfalso. rewrite (not_ctl s) in C; [discriminate|exact I|].
             unfold reserved. rewrite A. apply in_or_app. right. apply in_or_app. right. left. reflexivity. }
           destruct T as [->| ->]; [|exists 0%nat; reflexivity]. destruct (ASY E); [|exists 0%nat; reflexivity]. rewrite app_nil_r. eexists. reflexivity.
        -- unfold handed_out. rewrite C. unfold tunnel_rx. destruct (Nat.eqb_spec mo MO_ASYNC_DATA) as [->|]; [|left; destruct (ASY E); reflexivity]. destruct (ASY E); [|left; reflexivity]. do 5 right. split; reflexivity.
Qed.
Lemma tunnel_gets pre s id dlc data now : reached E pre s -> ASY E = true -> dlc <= 8 ->
  main_rx E false MO_ASYNC_DATA id dlc data now s = Ret ([HTunnel dlc data], s).
Proof.
  intros R A L. pose proof (CtlI_reached E HE _ _ R) as I.
  assert (In MO_ASYNC_DATA (reserved E)) as Rs by (unfold reserved; rewrite A; apply in_or_app; right; apply in_or_app; right; left; reflexivity).
  assert (is_ctl s MO_ASYNC_DATA = false) as C by (apply not_ctl; assumption).
  assert (owner s MO_ASYNC_DATA = None) as O.
  { destruct (owner s MO_ASYNC_DATA) as [p|] eqn:O; [|reflexivity]. pose proof (owner_in _ _ _ O) as Oi. destruct I as ((_ & I2 & _) & _). destruct (I2 _ Oi) as [_ Nr]. contradiction. }
  assert (sys_mo E MO_ASYNC_DATA = false) as Sm.
  { destruct (sys_mo E MO_ASYNC_DATA) eqn:Q; [|reflexivity]. apply sys_not_other in Q. tauto. }
  rewrite main_rx_eq by (exact L || (unfold MO_ASYNC_DATA; lia)). pose proof (unregistered E MO_ASYNC_DATA id dlc data now s O ltac:(discriminate) Sm) as H. cbn [step] in H. rewrite H.
  unfold handed_out. rewrite A, C. reflexivity.
Qed.

(** ** control objects are pairwise different as long as the numbers are small *)
Definition DI (s : node) : Prop :=
  length (h_used (n_hw s)) = NMSG E /\ used s MO_PROCESS = true /\
  (forall j, used s (ctl_mo s j) = true) /\
  (forall i j, (i < length (k_actrl (n_cfg s)))%nat -> (j < length (k_actrl (n_cfg s)))%nat -> i <> j -> is_ctl s (ctl_mo s i) = true -> ctl_mo s i <> ctl_mo s j).
Definition DR (s s' : node) : Prop := DI s -> DI s'.
#[local] Instance pre_DR : Pre DR := pre_imp DI.
Definition quiet (s s' : node) : Prop :=
  k_actrl (n_cfg s') = k_actrl (n_cfg s) /\ h_mask_ctrl (n_hw s') = h_mask_ctrl (n_hw s) /\ length (h_used (n_hw s')) = length (h_used (n_hw s)) /\
  (forall k, used s k = true -> used s' k = true).
#[local] Instance pre_quiet : Pre quiet.
Proof.
  unfold quiet. split; [intro; repeat split; auto|]. intros a c d (A1 & A2 & A3 & A4) (B1 & B2 & B3 & B4). repeat split; try congruence. auto.
Qed.
Lemma quiet_DR s s' : quiet s s' -> DR s s'.
Proof.
  intros (Q1 & Q2 & Q3 & Q4) (D1 & D2 & D3 & D4). unfold DI, ctl_mo, is_ctl in *. rewrite Q1, Q2, Q3. repeat split; auto.
Qed.
Lemma still_quiet s s' : still s s' -> quiet s s'.
Proof. intros (_ & A & _ & U & _ & C & _). unfold quiet, used. rewrite A, U, C. repeat split; auto. Qed.
Lemma DR_still {A} (m : M A) : pres still m -> pres DR m.
Proof. apply pres_weaken. intros s s' H. apply quiet_DR, still_quiet, H. Qed.
Lemma DR_quiet {A} (m : M A) : pres quiet m -> pres DR m.
Proof. apply pres_weaken. exact quiet_DR. Qed.
Lemma quiet_hw_define mo id mask rx : pres quiet (hw_define E mo id mask rx).
Proof.
  unfold hw_define. pres_tac; unfold quiet, used, upd_hw; cbn; rewrite ?set_nth_length; repeat split; auto. intros k. apply set_nth_true_grow.
Qed.
Lemma quiet_define mo id mask dlc rx sv sy : sv <> SvAsyncCtrl -> pres quiet (define_obj E mo id mask dlc rx sv sy).
Proof.
  intro N. unfold define_obj. destruct sv; try congruence; repeat (simple apply quiet_hw_define || pres_tac1); unfold quiet, used, upd_hw; cbn; repeat split; auto.
Qed.
Lemma DR_ctrl a id : id <= 2047 -> pres DR (r <- get_async_ctrl_obj E a ;;
      match r with
      | (Some mo, e) => define_obj E mo id MASK_ONE 8 true SvAsyncCtrl false
      | (None, e) => ret e
      end).
Proof.
  intros Li s e s' H D. mbind H as r s1 H1. unfold get_async_ctrl_obj in H1. destruct (Nat.leb_spec (MAXM E) a) as [La|La]; [minv_all; exact D|].
  mbind H1 as om s2 H2. destruct om as [mo|].
  - apply next_free_spec in H2. destruct H2 as (-> & Hu & Hl). mbind H1 as u s3 H3. apply modify_inv in H3. apply ret_inv in H1. destruct H1 as [-> ->].
    destruct D as (D1 & D2 & D3 & D4). rewrite D1 in Hl.
    assert (length (h_used (n_hw s3)) = NMSG E) as L3 by (subst s3; exact D1).

    assert (used s' mo = true /\ length (h_used (n_hw s')) = NMSG E /\ (forall k, used s k = true -> used s' k = true) /\ n_cfg s' = n_cfg s3 /\ (forall k, is_ctl s' k = true -> is_ctl s k = true \/ k = mo)) as (U1 & U2 & U3 & U4 & U5).
    { pose proof (define_obj_full E HE _ _ _ _ _ _ _ _ _ _ H) as (Cf & _ & Uk & _ & _ & Ck & _).
      assert (used s' mo = true /\ length (h_used (n_hw s')) = NMSG E) as [G1 G2].
      { unfold define_obj in H. destruct (Nat.ltb_spec mo (NMSG E)) as [_|Q]; [|lia]. cbn [negb] in H. rewrite andb_false_r in H. destruct (N.ltb_spec 2047 id) as [Q|_]; [lia|]. rewrite andb_false_r in H.
        change (8 <? u8 8) with false in H. rewrite andb_false_r in H. unfold andthen in H. mbind H as e5 s5 H5.
        assert (used s5 mo = true /\ length (h_used (n_hw s5)) = NMSG E) as [G1 G2].
        { unfold hw_define in H5. mbind H5 as u1 s6 H6. assert (s6 = s3) as -> by (unfold guard in H6; destruct (mo <? NMSG E)%nat; [apply ret_inv in H6; apply H6|discriminate]). mbind H5 as u2 s7 H7. apply modify_inv in H7.
          assert (used s7 mo = true /\ length (h_used (n_hw s7)) = NMSG E) as G by (subst s7; unfold used, upd_hw; cbn; rewrite set_nth_length; split; [apply nth_set_nth_same; lia|exact L3]).
          mbind H5 as ok s8 H8. assert (n_hw s8 = n_hw s7) as W8 by (unfold ask in H8; destruct (n_orc s7); injection H8 as _ <-; reflexivity).
          assert (used s8 mo = true /\ length (h_used (n_hw s8)) = NMSG E) as G' by (unfold used; rewrite W8; exact G).
          destruct ok; [|apply ret_inv in H5; destruct H5 as [_ ->]; exact G']. mbind H5 as u9 s9 H9. apply modify_inv in H9. apply ret_inv in H5. destruct H5 as [_ ->]. subst s9. exact G'. }
        destruct (e5 =? ERR_OK); [|apply ret_inv in H; destruct H as [_ ->]; auto]. mbind H as u6 s6 H6. apply modify_inv in H6. apply ret_inv in H. destruct H as [_ ->]. subst s6. auto. }
      split; [exact G1|]. split; [exact G2|]. split; [|split; [exact Cf|]].
      - intros k Hk. apply Uk. subst s3. exact Hk.
      - intros k Hk. rewrite Ck in Hk. apply orb_prop in Hk. destruct Hk as [Hk|Hk]; [left; subst s3; exact Hk|right]. apply andb_prop in Hk. destruct Hk as [_ Hk]. apply Nat.eqb_eq, Hk. }
    assert (k_actrl (n_cfg s') = set_nth (k_actrl (n_cfg s)) a mo) as Ka by (rewrite U4; subst s3; reflexivity).
    assert (forall j, ctl_mo s' j = if (j =? a)%nat && (a <? length (k_actrl (n_cfg s)))%nat then mo else ctl_mo s j) as Kj.
    { intro j. unfold ctl_mo. rewrite Ka. destruct (Nat.eqb_spec j a) as [->|Nj]; cbn [andb]; [|apply nth_set_nth_other; congruence].
      destruct (Nat.ltb_spec a (length (k_actrl (n_cfg s)))); [apply nth_set_nth_same; assumption|]. rewrite set_nth_beyond by lia. reflexivity. }
    assert (forall j, ctl_mo s j <> mo) as Nm by (intros j Q; specialize (D3 j); rewrite Q in D3; congruence).
    split; [exact U2|]. split; [apply U3, D2|]. split.
    + intro j. rewrite Kj. destruct ((j =? a)%nat && _); [exact U1|apply U3, D3].
    + intros i j Hi Hj Nij Ci. rewrite Ka, set_nth_length in Hi, Hj. rewrite !Kj in *.
      destruct (Nat.eqb_spec i a) as [->|Ni]; cbn [andb] in *.
      * destruct (Nat.eqb_spec j a) as [->|Nj]; [congruence|]. cbn [andb]. destruct (a <? _)%nat eqn:Q; [|apply Nat.ltb_ge in Q; lia]. intro Z. symmetry in Z. apply Nm in Z. exact Z.
      * destruct (Nat.eqb_spec j a) as [->|Nj]; cbn [andb].
        -- destruct (a <? _)%nat eqn:Q; [|apply Nat.ltb_ge in Q; lia]. apply Nm.
        -- apply D4; auto. apply U5 in Ci. destruct Ci as [Ci|Ci]; [exact Ci|]. apply Nm in Ci. destruct Ci.
  - unfold next_free in H2. apply gets_inv in H2. destruct H2 as [_ ->]. minv_all. exact D.
Qed.
Lemma DR_define mo id mask dlc rx sv sy : sv <> SvAsyncCtrl -> pres DR (define_obj E mo id mask dlc rx sv sy).
Proof. intro N. apply DR_quiet, quiet_define, N. Qed.
Lemma small_ctl nr : 1 <= nr <= 128 -> can_ident BASE_CTRL_RX nr 0 <= 2047.
Proof. intro H. rewrite ctl_rx_eq by lia. unfold ctl_rx_id. lia. Qed.
Lemma DR_shared a p nr mask : 1 <= nr <= 128 -> pres DR (define_shared E a p nr mask).
Proof.
  intros Hn. unfold define_shared. refine (pres_andthen _ _ _ _ _).
  - destruct (ASY E); [|pres_tac]. refine (pres_andthen _ _ _ _ _); [apply DR_ctrl, small_ctl, Hn|apply DR_define; discriminate].
  - repeat ((simple apply DR_define; discriminate) || (simple apply DR_still; apply still_silent) || pres_tac1).
Qed.
Lemma DR_leaf s s' : n_hw s' = n_hw s -> k_actrl (n_cfg s') = k_actrl (n_cfg s) -> DR s s'.
Proof. intros H K. apply quiet_DR. unfold quiet, used. rewrite H, K. repeat split; auto. Qed.
Lemma DR_cnfg a b c : pres DR (tx_data_cnfg E a b c).
Proof. apply DR_still, still_cnfg. Qed.
Lemma DR_rx_slot pos nr i : pres DR (rx_slot E pos nr i).
Proof.
  unfold rx_slot, rx_data_cnfg, next_free. repeat ((simple apply DR_define; discriminate) || pres_tac1); try (apply DR_leaf; reflexivity).
  apply quiet_DR. unfold quiet, used, upd_hw. cbn. auto.
Qed.
Lemma DR_set_module pos d nr rxs txs : 1 <= limit_nr pos nr <= 128 -> pres DR (set_module E pos d nr rxs txs).
Proof.
  intro L. unfold set_module. repeat ((simple apply DR_shared; exact L) || simple apply DR_rx_slot || simple apply DR_cnfg || pres_tac1); apply DR_leaf; reflexivity.
Qed.
Lemma DR_add d nr rxs txs s e s' : WF E s -> (forall i, next_pos s = Some i -> given_nr s i nr <= 128) -> add_module E d nr rxs txs s = Ret (e, s') -> DR s s'.
Proof.
  intros W Sm H. unfold add_module in H. mbind H as tab s0 H0. apply gets_inv in H0. destruct H0 as [-> ->]. rewrite first_unused_next in H. destruct (next_pos s) as [i|] eqn:Fu; [|apply ret_inv in H; destruct H as [_ ->]; apply pre_refl].
  specialize (Sm i eq_refl). apply next_pos_spec in Fu. destruct Fu as (Li & _). pose proof Li as Lt. rewrite (tab_len E s W) in Li. pose proof (given_range E HE s i nr Li) as [G _]. rewrite <- given_final in G, Sm by lia. unfold final_nr in G, Sm. revert H.
  assert (forall n (c : N), 1 <= limit_nr i n <= 128 -> pres DR (e0 <- set_module E i d n rxs txs ;; report_if e0 ;;; ret c)) as P.
  { intros n c L8. repeat ((simple apply DR_set_module; exact L8) || pres_tac1); apply DR_leaf; reflexivity. }
  destruct (existsb _ _); intro H; (eapply P; [|exact H]); rewrite ?limit_def; lia.
Qed.
Lemma DR_nr_ids t n a : 1 <= n <= 128 -> pres DR (change_nr_ids E t n a).
Proof.
  intro Hn. unfold change_nr_ids. repeat ((simple apply DR_shared; exact Hn) || (simple apply DR_define; discriminate) || simple apply DR_cnfg || pres_tac1); apply DR_leaf; reflexivity.
Qed.
Lemma DR_step o s s' : small_number E s o -> WF E s -> step E o s = Ret (tt, s') -> DR s s'.
Proof.
  intros So W H. destruct (match o with OpAdd _ _ _ _ => true | _ => false end) eqn:Ao.
  - destruct o; try discriminate. cbn [step] in H. unfold ignore in H. mbind H as e s0 H0. apply ret_inv in H. destruct H as [_ ->]. eapply DR_add; eauto.
  - revert H. apply (kernel_step E DR); try typeclasses eauto; try (intros; apply DR_leaf; reflexivity).
    destruct o; cbn [kernel]; auto; try (intro; apply DR_leaf; reflexivity); try discriminate.
    + intros Hs. unfold sys_kernel. cbn [small_number] in So. specialize (So Hs). change (b data 0) with (byte_at data 0). destruct (cmd_of (byte_at data 0)) eqn:Cm; auto; try (intro; apply DR_still, still_sys_silent).
      * split; [intro; apply DR_still, still_mode|apply DR_still, still_baud].
      * assert (byte_at data 0 = 32) as C32 by (revert Cm; unfold cmd_of; repeat match goal with |- context [if byte_at data 0 =? ?k then _ else _] => destruct (N.eqb_spec (byte_at data 0) k); [cbv iota|] end; congruence).
        intro pos. unfold change_nr. change (b data 2) with (byte_at data 2). specialize (So C32). repeat ((simple apply DR_nr_ids; exact So) || (simple apply DR_still; apply still_silent) || pres_tac1).
      * intro pos. unfold change_type. repeat (simple apply DR_cnfg || pres_tac1); apply DR_leaf; reflexivity.
    + unfold set_silent_awake_type_nr. repeat ((simple apply DR_still; apply still_silent) || pres_tac1).
    + apply DR_nr_ids. exact So.
    + unfold change_type_add. pres_tac; apply DR_leaf; reflexivity.
    + apply DR_still, still_mode.
    + apply DR_still, still_baud.
    + apply DR_still, still_part.
Qed.

Lemma small_reached ops s : small_history E ops s -> reached E ops s.
Proof.
  induction 1 as [s B|ops s o s' _ IH _ H].
  - exists s. split; [exact B|reflexivity].
  - eapply reached_step; eauto.
Qed.
Lemma DI_booted s : booted E s -> DI s.
Proof.
  intro B. assert (reached E [] s) as R by (exists s; split; [exact B|reflexivity]).
  pose proof (WF_reached E _ _ R) as W. pose proof (HwI_reached E _ _ R) as (I1 & _). pose proof (CtlI_reached E HE _ _ R) as C.
  assert (k_actrl (n_cfg s) = repeat 0%nat (MAXM E)) as K.
  { destruct B as (mem & st & orc & rate & H). unfold can_init in H. assert (forall (m : M N), pres (fun a c => k_actrl (n_cfg c) = k_actrl (n_cfg a)) m -> forall e x y, m x = Ret (e, y) -> k_actrl (n_cfg y) = k_actrl (n_cfg x)) as P by (intros m Q e x y Hx; exact (Q _ _ _ Hx)).
    apply P in H; [exact H|]. clear P H. assert (Pre (fun a c : node => k_actrl (n_cfg c) = k_actrl (n_cfg a))) by (split; [reflexivity|congruence]).
    unfold config_init, msg_objs_init, sys_init, sync_init, define_obj, hw_define. pres_tac; reflexivity. }
  assert (forall j, ctl_mo s j = 0%nat) as Z by (intro j; unfold ctl_mo; rewrite K; destruct (Nat.lt_ge_cases j (MAXM E)); [rewrite nth_repeat; reflexivity|apply nth_overflow; rewrite repeat_length; lia]).
  assert (In MO_PROCESS (reserved E)) as Rp by (left; reflexivity).
  split; [apply (len_used E _ W)|]. split; [apply I1, Rp|]. split.
  - intro j. rewrite Z. apply I1, Rp.
  - intros i j _ _ _ Ci. rewrite Z in Ci. change 0%nat with MO_PROCESS in Ci. rewrite (not_ctl _ _ C Rp) in Ci. discriminate.
Qed.
Lemma DI_small ops s : small_history E ops s -> DI s.
Proof.
  induction 1 as [s B|ops s o s' Hs IH Sm H]; [apply DI_booted, B|]. eapply DR_step; eauto. eapply WF_reached, small_reached, Hs.
Qed.
Lemma filter_unique mo l : (forall i j, (i < length l)%nat -> (j < length l)%nat -> i <> j -> nth i l 0%nat = mo -> nth j l 0%nat <> mo) -> (length (filter (Nat.eqb mo) l) <= 1)%nat.
Proof.
  induction l as [|x l IH]; intro H; cbn [filter length]; [lia|].
  assert (length (filter (Nat.eqb mo) l) <= 1)%nat as I. { apply IH. intros i j Hi Hj N. apply (H (S i) (S j)); cbn; lia. }
  destruct (Nat.eqb_spec mo x) as [->|]; [|exact I]. cbn [length]. assert (filter (Nat.eqb x) l = []) as ->; [|cbn; lia].
  destruct (filter (Nat.eqb x) l) as [|y r] eqn:F; [reflexivity|]. exfalso. assert (In y (filter (Nat.eqb x) l)) as Iy by (rewrite F; left; reflexivity). apply filter_In in Iy. destruct Iy as [Iy Ey]. apply Nat.eqb_eq in Ey. subst y.
  apply (In_nth _ _ 0%nat) in Iy. destruct Iy as (k & Hk & Ek). apply (H 0%nat (S k)); cbn; try lia; auto.
Qed.
Lemma once ops s mo : small_history E ops s -> is_ctl s mo = true -> (length (filter (Nat.eqb mo) (k_actrl (n_cfg s))) <= 1)%nat.
Proof.
  intros Hs C. apply DI_small in Hs. destruct Hs as (_ & _ & _ & D). apply filter_unique. intros i j Hi Hj N Ei Ej. apply (D i j Hi Hj N); unfold ctl_mo; congruence.
Qed.
Lemma ctl_nr_eq nr : 1 <= nr -> nr < 8000 -> ctl_nr (ctl_rx_id nr) = nr.
Proof. intros H1 H2. unfold ctl_nr, ctl_rx_id, u16, u32. rewrite N.shiftr_div_pow2. change (2 ^ 2) with 4. lia. Qed.
Lemma frame_rx_ctl ops s mo id dlc data now : reached E ops s -> is_ctl s mo = true -> frame_rx E mo id dlc data now s = Ret (tt, s).
Proof.
  intros R C. pose proof (CtlI_reached E HE _ _ R) as [_ I]. destruct (I _ C) as (_ & Nr & No). apply (unregistered E mo id dlc data now s).
  - destruct (owner s mo) eqn:O; [|reflexivity]. apply owner_in in O. contradiction.
  - intros ->. apply Nr. left. reflexivity.
  - destruct (sys_mo E mo) eqn:Q; [|reflexivity]. apply sys_reserved in Q. contradiction.
Qed.
Lemma ctl_not_data ops s mo : reached E ops s -> ASY E = true -> is_ctl s mo = true -> mo <> MO_ASYNC_DATA.
Proof.
  intros R As C ->. pose proof (CtlI_reached E HE _ _ R) as [_ I]. destruct (I _ C) as (_ & Nr & _). apply Nr. unfold reserved. rewrite As. apply in_or_app. right. apply in_or_app. right. left. reflexivity.
Qed.
Lemma ctl_in_range ops s mo : reached E ops s -> is_ctl s mo = true -> (mo < NMSG E)%nat.
Proof.
  intros R C. pose proof (CtlI_reached E HE _ _ R) as [_ I]. destruct (I _ C) as (U & _). pose proof (len_used E _ (WF_reached E _ _ R)) as L. destruct (Nat.lt_ge_cases mo (NMSG E)); [assumption|].
  unfold used in U. rewrite nth_overflow in U by lia. discriminate.
Qed.
Lemma control_run ops s mo id dlc data now : reached E ops s -> ASY E = true -> is_ctl s mo = true -> dlc <= 8 ->
  main_rx E false mo id dlc data now s = Ret (repeat (HCtl (ctl_nr id) data) (length (filter (Nat.eqb mo) (k_actrl (n_cfg s)))), s).
Proof.
  intros R As C Ld. pose proof (ctl_in_range _ _ _ R C) as L. rewrite main_rx_eq by (auto; destruct HE as (_ & H & _); lia). rewrite (frame_rx_ctl _ _ _ id dlc data now R C). unfold handed_out. rewrite As, C. unfold tunnel_rx.
  destruct (Nat.eqb_spec mo MO_ASYNC_DATA) as [Q|_]; [apply (ctl_not_data _ _ _ R As C) in Q; destruct Q|]. rewrite app_nil_r. reflexivity.
Qed.
Lemma control_once ops s mo id dlc data now out : small_history E ops s -> (mo < NMSG E)%nat -> dlc <= 8 -> is_ctl s mo = true ->
  main_rx E false mo id dlc data now s = Ret (out, s) -> out = [] \/ out = [HCtl (ctl_nr id) data].
Proof.
  intros Hs Lm Ld C H. pose proof (small_reached _ _ Hs) as R. pose proof (once _ _ _ Hs C) as O. destruct (ASY E) eqn:As.
  - rewrite (control_run _ _ _ _ _ _ _ R As C Ld) in H. injection H as <-. destruct (length _) as [|[|n]]; [left; reflexivity|right; reflexivity|lia].
  - rewrite main_rx_eq in H by (auto; destruct HE as (_ & Q & _); lia). rewrite (frame_rx_ctl _ _ _ id dlc data now R C) in H. unfold handed_out in H. rewrite As in H. injection H as <-. left. reflexivity.
Qed.
Lemma delivered ops s p dlc data now : small_history E ops s -> ASY E = true -> complete E s p -> 1 <= m_nr (modat s p) <= 128 -> dlc <= 8 ->
  main_rx E false (ctl_mo s p) (ctl_rx_id (m_nr (modat s p))) dlc data now s = Ret ([HCtl (m_nr (modat s p)) data], s).
Proof.
  intros Hs As Cp Hn Ld. pose proof (small_reached _ _ Hs) as R. destruct Cp as (Lp & _ & Cc). destruct (Cc As) as [C _]. rewrite (control_run _ _ _ _ _ _ _ R As C Ld). rewrite ctl_nr_eq by lia.
  pose proof (once _ _ _ Hs C) as O. assert (In (ctl_mo s p) (filter (Nat.eqb (ctl_mo s p)) (k_actrl (n_cfg s)))) as Hi.
  { apply filter_In. split; [|apply Nat.eqb_refl]. unfold ctl_mo. destruct (Nat.lt_ge_cases p (length (k_actrl (n_cfg s)))) as [L|L]; [apply nth_In; exact L|]. exfalso.
    unfold ctl_mo in C. rewrite nth_overflow in C by exact L. change 0%nat with MO_PROCESS in C. rewrite (not_ctl _ _ (CtlI_reached E HE _ _ R)) in C; [discriminate|left; reflexivity]. }
  destruct (filter _ _) as [|x [|y l]]; [destruct Hi|reflexivity|cbn in O; lia].
Qed.
Lemma moved ops s type new actual s' p id dlc data now : small_history E ops s -> ASY E = true -> named s type actual = Some p -> complete E s p -> 1 <= new <= 128 ->
  change_nr_ids E type new actual s = Ret (ERR_OK, s') -> dlc <= 8 ->
  main_rx E false (ctl_mo s p) id dlc data now s' = Ret ([], s') /\ ctl_mo s' p <> ctl_mo s p.
Proof.
  intros Hs As Hn Cp Nn H Ld. pose proof (small_reached _ _ Hs) as R.
  assert (step E (OpSetNr type new actual) s = Ret (tt, s')) as St by (cbn [step]; unfold ignore, bind; rewrite H; reflexivity).
  assert (small_history E (ops ++ [OpSetNr type new actual]) s') as Hs' by (eapply sh_step; eauto). pose proof (small_reached _ _ Hs') as R'.
  pose proof (CtlI_reached E HE _ _ R) as I. pose proof (WF_reached E _ _ R) as W. pose proof (DI_small _ _ Hs') as (_ & _ & _ & D').
  pose proof Cp as (Lp & _ & Cc). destruct (Cc As) as [C Li].
  pose proof (DI_small _ _ Hs) as (_ & _ & _ & D).
  assert ((forall j, j <> p -> ctl_mo s' j = ctl_mo s j) /\ used s (ctl_mo s' p) = false /\ is_ctl s' (ctl_mo s p) = true /\ length (k_actrl (n_cfg s')) = length (k_actrl (n_cfg s))) as (F1 & F2 & F3 & F4).
  { unfold change_nr_ids in H. mbind H as tab s0 H0. apply gets_inv in H0. destruct H0 as [-> ->]. rewrite find_type_nr_named, Hn in H.
    mbind H as u sa H1. mbind H as m sx Hm. apply gets_inv in Hm. destruct Hm as [_ ->].
    apply andthen_inv in H. destruct H as (sb & Hb & H). apply andthen_inv in H. destruct H as (sc & Hc & H).
    assert (quiet s sc /\ WF E sc /\ CtlI E sc) as (Q & Wc & Ic).
    { apply modify_inv in H1. assert (quiet s sa /\ WF E sa /\ CtlI E sa) as (Qa & Wa & Ia).
      { subst sa. split; [unfold quiet, used, upd_mod; cbn; auto|]. split; [revert W; apply wf_upd_mod; intros x Hx; exact Hx|exact I]. }
      assert (quiet sa sb /\ WF E sb /\ CtlI E sb) as (Qb & Wb & Ib).
      { split; [|split].
        - apply still_quiet. revert Hb. apply pres_for_err; [typeclasses eauto|]. intro. apply still_cnfg.
        - revert Wa. change (WFR E sa sb). revert Hb. apply pres_for_err; [typeclasses eauto|]. intro; simple apply wf_tx_data_cnfg.
        - revert Ia. change (CtlR E sa sb). revert Hb. apply pres_for_err; [apply pre_imp|]. intro. apply CtlR_cnfg. }
      assert (quiet sb sc /\ WF E sc /\ CtlI E sc) as (Qc & Wc & Ic).
      { split; [|split].
        - revert Hc. apply pres_for_err; [typeclasses eauto|]. intro. apply quiet_define. discriminate.
        - revert Wb. change (WFR E sb sc). revert Hc. apply pres_for_err; [typeclasses eauto|]. intro; simple apply wf_define_obj.
        - revert Ib. change (CtlR E sb sc). revert Hc. apply pres_for_err; [apply pre_imp|]. intro. apply CtlR_define; [exact HE|discriminate]. }
      split; [|split; assumption]. eapply pre_trans; [exact Qa|]. eapply pre_trans; eauto. }
    mbind H as tab' sx Hx. apply gets_inv in Hx. destruct Hx as [-> ->]. mbind H as n sx Hx. apply gets_inv in Hx. destruct Hx as [-> ->].
    rewrite define_shared_eq in H. apply andthen_inv in H. destruct H as (sd & Hd & H). mbind H as st sx Hx. apply gets_inv in Hx. destruct Hx as [-> ->]. apply (still_silent E) in H.
    pose proof (shared_calm E HE _ _ _ _ _ _ Hd) as (_ & _ & Cd & _). pose proof (aside_shared E HE p _ _ _ _ _ _ Hd) as (_ & _ & _ & Ad & _).
    assert (length (k_actrl (n_cfg sd)) = length (k_actrl (n_cfg sc))) as Ld'.
    { pose proof (WF_reached E _ _ R') as ((_ & _ & _ & A & _) & _). destruct Wc as ((_ & _ & _ & B & _) & _). destruct H as (_ & S2 & _). rewrite <- S2. congruence. }
    apply (shared_ok E HE) in Hd; [|exact Wc|apply Ic]. destruct Hd as [_ Ct]. destruct (Ct As) as (_ & C1 & _).
    destruct Q as (Q1 & Q2 & Q3 & Q4). destruct H as (_ & S2 & _ & _ & _ & S6 & _).
    assert (forall j, ctl_mo s' j = ctl_mo sd j) as Ks by (intro j; unfold ctl_mo; rewrite S2; reflexivity).
    assert (forall j, ctl_mo sc j = ctl_mo s j) as Kc by (intro j; unfold ctl_mo; rewrite Q1; reflexivity).
    repeat split.
    - intros j Nj. rewrite Ks, Ad, Kc by exact Nj. reflexivity.
    - rewrite Ks. destruct (used s (ctl_mo sd p)) eqn:U; [apply Q4 in U; congruence|reflexivity].
    - unfold is_ctl. rewrite S6. apply Cd. unfold is_ctl. rewrite Q2. exact C.
    - rewrite S2, Ld', Q1. reflexivity. }
  assert (ctl_mo s' p <> ctl_mo s p) as Ne. { intro Q. rewrite Q in F2. apply I in C. destruct C. congruence. }
  split; [|exact Ne]. rewrite (control_run _ _ _ _ _ _ _ R' As F3 Ld).
  destruct (filter (Nat.eqb (ctl_mo s p)) (k_actrl (n_cfg s'))) as [|y r] eqn:F; [reflexivity|]. exfalso. assert (In y (filter (Nat.eqb (ctl_mo s p)) (k_actrl (n_cfg s')))) as Iy by (rewrite F; left; reflexivity).
  apply filter_In in Iy. destruct Iy as [Iy Ey]. apply Nat.eqb_eq in Ey. subst y. apply (In_nth _ _ 0%nat) in Iy. destruct Iy as (k & Hk & Ek). fold (ctl_mo s' k) in Ek.
  destruct (Nat.eq_dec k p) as [->|Nk]; [contradiction|]. rewrite F1 in Ek by exact Nk. rewrite F4 in Hk.
  assert (p < length (k_actrl (n_cfg s)))%nat as Lk. { destruct (Nat.lt_ge_cases p (length (k_actrl (n_cfg s)))) as [L|L]; [exact L|]. exfalso.
    unfold ctl_mo in C. rewrite nth_overflow in C by exact L. change 0%nat with MO_PROCESS in C. rewrite (not_ctl _ _ I) in C; [discriminate|left; reflexivity]. }
  apply (D p k Lk Hk); auto.
Qed.
End Serv.
