(** The bit rate: proofs. *)
From Verif Require Import Words WordsFacts Bits ErrModel NodeModel NodeLib NodeInv NodeSpec NodeHw NodeCnt NodeSync NodePres NodeSilent NodeSysP NodeTxP RateModel RateSpec.

Definition rt (s : node) : N * option N * option N := (k_bdr (n_cfg s), h_rate (n_hw s), h_xrate (n_hw s)).
Definition same_rt (s s' : node) : Prop := rt s' = rt s.
#[export] Instance pre_same_rt : Pre same_rt.
Proof. split; [intro; reflexivity|unfold same_rt; intros; congruence]. Qed.

Section S.
Variable E : env.
Lemma rt_silent p st : pres same_rt (set_silent_awake E p st).
Proof.
  unfold set_silent_awake, sync_off, sync_on, tx_data_on, tx_data_off.
  repeat ((simple apply pres_call_rx; [typeclasses eauto| intros; reflexivity]) || pres_tac1); reflexivity.
Qed.
Lemma rt_define_obj a b c d e f g : pres same_rt (define_obj E a b c d e f g).
Proof. unfold define_obj, hw_define. pres_tac; reflexivity. Qed.
Lemma rt_shared a b c d : pres same_rt (define_shared E a b c d).
Proof.
  unfold define_shared, get_async_ctrl_obj, next_free.
  repeat (simple apply rt_define_obj || simple apply rt_silent || pres_tac1); reflexivity.
Qed.
Lemma rt_txc a b c : pres same_rt (tx_data_cnfg E a b c).
Proof. unfold tx_data_cnfg. pres_tac; reflexivity. Qed.
Lemma rt_nr_ids t n a : pres same_rt (change_nr_ids E t n a).
Proof. unfold change_nr_ids. repeat (simple apply rt_shared || simple apply rt_define_obj || simple apply rt_txc || pres_tac1); reflexivity. Qed.
Lemma rt_set_module pos d nr rxs txs : pres same_rt (set_module E pos d nr rxs txs).
Proof.
  unfold set_module, rx_slot, next_free, rx_data_cnfg.
  repeat (simple apply rt_shared || simple apply rt_define_obj || simple apply rt_txc || pres_tac1); reflexivity.
Qed.
Lemma rt_mode m : pres same_rt (set_node_mode m).
Proof. unfold set_node_mode. pres_tac; reflexivity. Qed.
(** setting a rate: afterwards either nothing has changed or all three rates are the new one *)
Definition moved (r : N) (s s' : node) : Prop := (rt s' = rt s \/ rt s' = (r, Some r, Some r)) /\ h_mode (n_hw s') = h_mode (n_hw s) /\ k_bdrtab (n_cfg s') = k_bdrtab (n_cfg s).
Lemma loop_rest r l : forall err s e s', (forall x, In x l -> In x RATES) -> (h_mode (n_hw s) = MODE_INIT \/ h_mode (n_hw s) = MODE_STOPPED) ->
  set_baudrate_loop l r err s = Ret (e, s') -> moved r s s'.
Proof.
  induction l as [|x l IH]; intros err s e s' Hl Hm H; cbn [set_baudrate_loop] in H; [apply ret_inv in H; destruct H as [_ ->]; repeat split; auto|].
  destruct (N.eqb_spec r x) as [<-|Nx]; [|eapply IH; eauto; intros; apply Hl; right; auto].
  mbind H as u s1 H1. apply modify_inv in H1. mbind H as e1 s2 H2.
  assert (e1 = ERR_OK /\ s2 = set_n_log (upd_hw (fun h => set_h_rate h (Some r)) s1) (n_log s1 ++ [EvRate r])) as [-> ->].
  { unfold hw_set_baudrate in H2. mbind H2 as md s3 H3. apply gets_inv in H3. destruct H3 as [-> ->].
    assert ((h_mode (n_hw s1) =? MODE_INIT) || (h_mode (n_hw s1) =? MODE_STOPPED) = true) as Q.
    { subst s1. change (h_mode (n_hw (upd_cfg (fun k => set_k_bdr k r) s))) with (h_mode (n_hw s)). destruct Hm as [-> | ->]; reflexivity. }
    rewrite Q in H2. assert ((r =? 125) || (r =? 250) || (r =? 500) || (r =? 1000) = true) as Q2.
    { pose proof (Hl r (or_introl eq_refl)) as Hr. unfold RATES in Hr. cbn in Hr. lia. }
    rewrite Q2 in H2. unfold emit in H2. minv_all. split; reflexivity. }
  change (ERR_OK =? ERR_OK) with true in H. cbv iota in H. mbind H as u2 s3 H3. apply modify_inv in H3.
  apply IH in H; [|intros; apply Hl; right; auto|subst; exact Hm]. destruct H as (A1 & A2 & A3). subst s3 s1. split; [right|split; [exact A2|exact A3]].
  destruct A1 as [A1|A1]; [rewrite A1; reflexivity|exact A1].
Qed.
(** a rate of the table is taken over *)
Lemma loop_in r l : forall err s e s', (forall x, In x l -> In x RATES) -> (h_mode (n_hw s) = MODE_INIT \/ h_mode (n_hw s) = MODE_STOPPED) -> In r l ->
  set_baudrate_loop l r err s = Ret (e, s') -> rt s' = (r, Some r, Some r).
Proof.
  induction l as [|x l IH]; intros err s e s' Hl Hm Hi H; [destruct Hi|]. cbn [set_baudrate_loop] in H.
  destruct (N.eqb_spec r x) as [<-|Nx]; [|destruct Hi as [Hi|Hi]; [congruence|]; eapply IH; eauto; intros; apply Hl; right; auto].
  mbind H as u s1 H1. apply modify_inv in H1. mbind H as e1 s2 H2.
  assert (e1 = ERR_OK /\ s2 = set_n_log (upd_hw (fun h => set_h_rate h (Some r)) s1) (n_log s1 ++ [EvRate r])) as [-> ->].
  { unfold hw_set_baudrate in H2. mbind H2 as md s3 H3. apply gets_inv in H3. destruct H3 as [-> ->].
    assert ((h_mode (n_hw s1) =? MODE_INIT) || (h_mode (n_hw s1) =? MODE_STOPPED) = true) as Q.
    { subst s1. change (h_mode (n_hw (upd_cfg (fun k => set_k_bdr k r) s))) with (h_mode (n_hw s)). destruct Hm as [-> | ->]; reflexivity. }
    rewrite Q in H2. assert ((r =? 125) || (r =? 250) || (r =? 500) || (r =? 1000) = true) as Q2.
    { pose proof (Hl r (or_introl eq_refl)) as Hr. unfold RATES in Hr. cbn in Hr. lia. }
    rewrite Q2 in H2. unfold emit in H2. minv_all. split; reflexivity. }
  change (ERR_OK =? ERR_OK) with true in H. cbv iota in H. mbind H as u2 s3 H3. apply modify_inv in H3.
  apply loop_rest in H; [|intros; apply Hl; right; auto|subst; exact Hm]. destruct H as (A1 & _). subst s3 s1.
  destruct A1 as [A1|A1]; [rewrite A1; reflexivity|exact A1].
Qed.
Lemma set_at_rest pre r s s' : reached E pre s -> rate_at_rest s (OpBaud r) -> In r RATES -> step E (OpBaud r) s = Ret (tt, s') -> rt s' = (r, Some r, Some r).
Proof.
  intros R Hr Hi H. cbn [step] in H. unfold ignore in H. mbind H as e s1 H1. apply ret_inv in H. destruct H as [_ ->]. unfold set_baudrate in H1. mbind H1 as tab s3 H3. apply gets_inv in H3. destruct H3 as [-> ->].
  pose proof (bdrtab_reached E _ _ R) as Ht. eapply loop_in; [|exact Hr| |exact H1]; rewrite Ht; auto.
Qed.
(** in every mode the rate of the controller and the stored one go together *)
Lemma loop_any r l : forall err s e s', set_baudrate_loop l r err s = Ret (e, s') -> h_rate (n_hw s) = h_xrate (n_hw s) -> h_rate (n_hw s') = h_xrate (n_hw s').
Proof.
  induction l as [|x l IH]; intros err s e s' H Q; cbn [set_baudrate_loop] in H; [apply ret_inv in H; destruct H as [_ ->]; exact Q|].
  destruct (r =? x) eqn:Rx; [|eapply IH; eauto]. apply N.eqb_eq in Rx. subst x. mbind H as u s1 H1. apply modify_inv in H1. mbind H as e1 s2 H2. mbind H as u2 s3 H3. apply IH in H; [exact H|].
  unfold hw_set_baudrate in H2. mbind H2 as md s4 H4. apply gets_inv in H4. destruct H4 as [-> ->].
  destruct ((_ =? MODE_INIT) || _); [destruct (_ || _ || _ || _)|].
  - unfold emit in H2. minv_all. change (ERR_OK =? ERR_OK) with true in H3. cbv iota in H3. apply modify_inv in H3. subst s3. reflexivity.
  - apply ret_inv in H2. destruct H2 as [-> ->]. change (E_INVALID_BAUDRATE =? ERR_OK) with false in H3. cbv iota in H3. apply ret_inv in H3. destruct H3 as [_ ->]. subst s1. exact Q.
  - apply ret_inv in H2. destruct H2 as [-> ->]. change (E_INVALID_BAUDRATE =? ERR_OK) with false in H3. cbv iota in H3. apply ret_inv in H3. destruct H3 as [_ ->]. subst s1. exact Q.
Qed.
Lemma kernel_rt o : (forall r, o <> OpBaud r) -> (forall mo id dlc data now, o <> OpFrame mo id dlc data now) -> pres same_rt (step E o).
Proof.
  intros Nb Nf. apply (kernel_step E same_rt); try reflexivity. destruct o; cbn [kernel]; auto; try (intros; reflexivity).
  - exfalso. eapply Nf. reflexivity.
  - unfold add_module. repeat (simple apply rt_set_module || pres_tac1); reflexivity.
  - unfold set_silent_awake_type_nr. repeat (simple apply rt_silent || pres_tac1); reflexivity.
  - apply rt_nr_ids.
  - unfold change_type_add. pres_tac; reflexivity.
  - apply rt_mode.
  - exfalso. eapply Nb. reflexivity.
  - unfold set_active_critical, sync_off, sync_on, tx_data_on, tx_data_off.
    repeat ((simple apply pres_call_rx; [typeclasses eauto| intros; reflexivity]) || pres_tac1); reflexivity.
Qed.
Lemma rt_cmd bc pos nr src : cmd_of (b src 0) <> CBaud -> pres same_rt (sys_cmd E bc pos nr src).
Proof.
  intro Hc. apply (kpres_sys_cmd E same_rt); try reflexivity. unfold sys_kernel. destruct (cmd_of (b src 0)); auto; try congruence.
  - intro. unfold change_nr. repeat (simple apply rt_nr_ids || simple apply rt_silent || pres_tac1); reflexivity.
  - intro. unfold sys_silent_awake. repeat (simple apply rt_silent || pres_tac1); reflexivity.
  - intro. unfold sys_silent_awake. repeat (simple apply rt_silent || pres_tac1); reflexivity.
  - intro. unfold change_type. repeat (simple apply rt_txc || pres_tac1); reflexivity.
Qed.
Definition moved_some (s s' : node) : Prop := rt s' = rt s \/ exists r, rt s' = (r, Some r, Some r).
Lemma cmd_moved bc pos nr src s e s' : k_bdrtab (n_cfg s) = RATES -> sys_cmd E bc pos nr src s = Ret (e, s') -> moved_some s s'.
Proof.
  intros Ht H. assert ({cmd_of (b src 0) = CBaud} + {cmd_of (b src 0) <> CBaud}) as [Hc|Hc] by (destruct (cmd_of (b src 0)); (left; reflexivity) || (right; discriminate)).
  2: { left. eapply rt_cmd in H; eauto. }
  unfold sys_cmd in H. rewrite Hc in H. mbind H as n0 s0 H0. apply gets_inv in H0. destruct H0 as [-> ->]. destruct bc; [|apply ret_inv in H; destruct H as [_ ->]; left; reflexivity].
  mbind H as md s0 H0. apply gets_inv in H0. destruct H0 as [-> ->]. unfold andthen at 1 in H. mbind H as e1 s1 H1. pose proof (rt_mode _ _ _ _ H1) as R1. unfold same_rt in R1.
  apply set_node_mode_inv in H1. destruct H1 as [S1 E1]. destruct (e1 =? ERR_OK); [|apply ret_inv in H; destruct H as [_ ->]; left; exact R1].
  unfold andthen at 1 in H. mbind H as e2 s2 H2. assert (moved_some s1 s2) as M2.
  { unfold set_baudrate in H2. mbind H2 as tab s3 H3. apply gets_inv in H3. destruct H3 as [-> ->].
    apply loop_rest in H2; [destruct H2 as ([A|A] & _); [left; exact A|right; eexists; exact A]| |].
    - subst s1. cbn. destruct (hd true (n_orc s)); cbn; rewrite Ht; auto.
    - subst s1. right. cbn. destruct (hd true (n_orc s)); reflexivity. }
  assert (rt s' = rt s2) as R3. { destruct (e2 =? ERR_OK); [apply rt_mode in H; exact H|apply ret_inv in H; destruct H as [_ ->]; reflexivity]. }
  unfold moved_some in *. rewrite R3, <- R1. exact M2.
Qed.
Lemma step_moved pre o s s' : reached E pre s -> rate_at_rest s o -> step E o s = Ret (tt, s') -> moved_some s s'.
Proof.
  intros R Hr H. pose proof (bdrtab_reached E _ _ R) as Ht. destruct o; try (left; eapply kernel_rt in H; [exact H|discriminate|discriminate]).
  - cbn [step] in H. unfold frame_rx in H. mbind H as sy s0 H0. apply gets_inv in H0. destruct H0 as [-> ->].
    mbind H as u1 s1 H1. assert (rt s1 = rt s /\ k_bdrtab (n_cfg s1) = RATES) as [R1 T1].
    { destruct (is_sync_mo mo s); [|apply ret_inv in H1; destruct H1 as [_ ->]; auto]. split.
      - apply (kpres_on_data E same_rt) in H1; try (intros; reflexivity). exact H1.
      - apply (kpres_on_data E same_rates) in H1; try (intros; reflexivity). unfold same_rates in H1. congruence. }
    mbind H as u2 s2 H2. assert (rt s2 = rt s1 /\ k_bdrtab (n_cfg s2) = RATES) as [R2 T2].
    { destruct (mo =? MO_PROCESS)%nat; [|apply ret_inv in H2; destruct H2 as [_ ->]; auto]. split.
      - apply (kpres_on_process E same_rt) in H2; try (intros; reflexivity). exact H2.
      - apply (kpres_on_process E same_rates) in H2; try (intros; reflexivity). unfold same_rates in H2. congruence. }
    unfold moved_some. rewrite <- R1, <- R2. clear R1 R2 H1 H2. destruct (_ || _); [|apply ret_inv in H; destruct H as [_ ->]; left; reflexivity].
    unfold on_sys in H. mbind H as e s3 H3. assert (rt s' = rt s3) as ->.
    { revert H. assert (pres same_rt (report_if e)) as P by (unfold report_if; pres_tac; reflexivity). intro H. apply P in H. exact H. }
    unfold sys_msg_rx in H3. destruct (negb (dlc =? 8)); [apply ret_inv in H3; destruct H3 as [_ ->]; left; reflexivity|].
    destruct (_ =? NR_BROADCAST).
    + mbind H3 as n s4 H4. apply gets_inv in H4. destruct H4 as [-> ->]. destruct (nmod s2 =? 0)%nat; [apply ret_inv in H3; destruct H3 as [_ ->]; left; reflexivity|eapply cmd_moved; eauto].
    + mbind H3 as tab s4 H4. apply gets_inv in H4. destruct H4 as [-> ->]. destruct (find_nr _ _ _); [eapply cmd_moved; eauto|apply ret_inv in H3; destruct H3 as [_ ->]; left; reflexivity].
  - cbn [step] in H. unfold ignore in H. mbind H as e s1 H1. apply ret_inv in H. destruct H as [_ ->]. unfold set_baudrate in H1. mbind H1 as tab s3 H3. apply gets_inv in H3. destruct H3 as [-> ->].
    apply loop_rest in H1; [destruct H1 as ([A|A] & _); [left; exact A|right; eexists; exact A]|rewrite Ht; auto|exact Hr].
Qed.
Lemma rt_booted s : booted E s -> rt s = (0, None, None).
Proof.
  intros (mem & st & orc & rate & B). enough (pres same_rt (can_init E rate)) as X by (apply X in B; exact B).
  unfold can_init, config_init, msg_objs_init, sys_init, sync_init. repeat (simple apply rt_define_obj || pres_tac1); reflexivity.
Qed.
Lemma step_any pre o s s' : reached E pre s -> step E o s = Ret (tt, s') -> h_rate (n_hw s) = h_xrate (n_hw s) -> h_rate (n_hw s') = h_xrate (n_hw s').
Proof.
  intros R H Q. assert ({r | o = OpBaud r} + {rate_at_rest s o}) as [[r ->]|A] by (destruct o; try (right; exact I); left; eauto).
  - cbn [step] in H. unfold ignore in H. mbind H as e s1 H1. apply ret_inv in H. destruct H as [_ ->]. unfold set_baudrate in H1. mbind H1 as tab s3 H3. apply gets_inv in H3. destruct H3 as [-> ->].
    eapply loop_any; eauto.
  - destruct (step_moved _ _ _ _ R A H) as [M|[r M]]; unfold rt in M; injection M as M1 M2 M3; congruence.
Qed.
Lemma saved ops : forall pre s s', reached E pre s -> h_rate (n_hw s) = h_xrate (n_hw s) -> run E ops s = Ret (tt, s') -> h_rate (n_hw s') = h_xrate (n_hw s').
Proof.
  induction ops as [|o ops IH]; intros pre s s' R Q H; cbn [run] in H; [apply ret_inv in H; destruct H as [_ ->]; exact Q|]. mbind H as u s1 H1. destruct u.
  eapply (IH (pre ++ [o])); [eapply reached_app; eauto| |exact H]. eapply step_any; eauto.
Qed.
Lemma saved_reached ops s : reached E ops s -> h_xrate (n_hw s) = h_rate (n_hw s).
Proof.
  intros (s0 & B & R). symmetry. apply (saved ops [] s0); auto; [exists s0; split; [exact B|reflexivity]|]. pose proof (rt_booted _ B) as Q. unfold rt in Q. injection Q as _ -> ->. reflexivity.
Qed.
Lemma told_run ops : forall pre s s', reached E pre s -> (rt s = (0, None, None) \/ exists r, rt s = (r, Some r, Some r)) -> run_with E rate_at_rest ops s s' ->
  rt s' = (0, None, None) \/ exists r, rt s' = (r, Some r, Some r).
Proof.
  induction ops as [|o ops IH]; intros pre s s' R Q H; cbn [run_with] in H; [subst; exact Q|]. destruct H as (A & s1 & H1 & H).
  eapply (IH (pre ++ [o])); [eapply reached_app; eauto| |exact H]. destruct (step_moved _ _ _ _ R A H1) as [M|M]; [rewrite M; exact Q|right; exact M].
Qed.
End S.
