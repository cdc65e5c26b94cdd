(** C71: module numbers can be changed any number of times. *)
From Verif Require Import Words ErrModel NodeModel NodeLib NodeInv NodeSpec NodeHw NodeMo NodeCfg NodeImage NodeUseSpec NodeUse NodeEx NodeTxProps.

(** C71, the part that holds: as long as a message object is free, hardware that accepts what it is given lets an awake,
    completely configured module get any valid number. *)
Theorem C71_possible_partial : forall E pre s type new actual p,
  env_ok E -> reached E pre s -> named s type actual = Some p -> complete E s p -> awake s p = true ->
  n_orc s = [] -> (forall i, (i < m_nrx (modat s p))%nat -> r_dlc (rxat (modat s p) i) <= 8) ->
  1 <= new <= 128 -> (0 < free_objects s)%nat ->
  exists s', change_nr_ids E type new actual s = Ret (ERR_OK, s') /\ m_nr (modat s' p) = new /\ hears E s' new.
Proof.
  intros E pre s type new actual p HE R Hn C A O D Hnew F.
  destruct (nr_possible E HE type new actual s p) as (s' & H); auto.
  - eapply WF_reached; eauto.
  - eapply CtlI_reached; eauto.
  - unfold awake in A. apply N.eqb_eq in A. exact A.
  - exists s'. split; [exact H|]. pose proof (set_nr_effect E HE pre type new actual s s' p R Hn) as X. destruct X as (X1 & X2 & _ & _ & _ & X3); auto; [lia|lia|]. split; [exact X2|].
    apply X3; auto. right. exists p. split; [apply X1|exact X2].
Qed.
Print Assumptions C71_possible_partial.
(** C71, what is false: every successful number change takes a message object for good, and no operation gives one back. *)
Theorem C71_takes_partial : forall E pre s type new actual s',
  env_ok E -> ASY E = true -> reached E pre s -> change_nr_ids E type new actual s = Ret (ERR_OK, s') -> (free_objects s' < free_objects s)%nat.
Proof. intros E pre s type new actual s' HE As R H. eapply nr_takes; eauto; [eapply WF_reached; eauto|eapply HwI_reached; eauto]. Qed.
Print Assumptions C71_takes_partial.
(** hence no history has more successful number changes than there are free message objects at its start, whatever else happens *)
Theorem C71_bounded_refuted : forall E pre s n s',
  env_ok E -> ASY E = true -> reached E pre s -> changed E s n s' -> (n <= free_objects s)%nat /\ (n <= NMSG E)%nat.
Proof.
  intros E pre s n s' HE As R H. pose proof (WF_reached E _ _ R) as W. apply (changed_inv E HE) in H; auto; [|eapply HwI_reached; eauto]. destruct H as (_ & _ & H). split; [lia|].
  pose proof (frees_total (h_used (n_hw s))) as T. rewrite <- free_frees, (len_used E _ W) in T. lia.
Qed.
Print Assumptions C71_bounded_refuted.
(** with no object left the change fails, but the module has the new number, and the objects for system messages and
    asynchronous data accept what they accepted before *)
Theorem C71_half_refuted : forall E pre s type new actual p e s',
  env_ok E -> ASY E = true -> reached E pre s -> named s type actual = Some p -> complete E s p -> free_objects s = 0%nat ->
  change_nr_ids E type new actual s = Ret (e, s') ->
  e <> ERR_OK /\ m_nr (modat s' p) = new /\ (forall nr, hears E s' nr <-> hears E s nr).
Proof.
  intros E pre s type new actual p e s' HE As R Hn C F H. eapply nr_stuck in H; eauto; [|eapply WF_reached; eauto|eapply CtlI_reached; eauto]. destruct H as (H1 & H2 & H3). split; [exact H1|]. split; [exact H2|].
  assert (forall k id, In k (fixed_mo E) -> passes s' k id <-> passes s k id) as Q. { intros k id Hk. specialize (H3 k Hk). unfold filt in H3. unfold passes. rewrite H3. tauto. }
  intro nr. unfold hears. rewrite (Q MO_SYS1) by (unfold fixed_mo; cbn; auto). destruct (SYS2 E) eqn:S2.
  - rewrite (Q MO_SYS2) by (unfold fixed_mo; rewrite S2; cbn; auto). rewrite (Q MO_ASYNC_DATA) by (unfold fixed_mo; rewrite S2, As; cbn; auto 10). tauto.
  - rewrite (Q MO_ASYNC_DATA) by (unfold fixed_mo; rewrite S2, As; cbn; auto 10). intuition discriminate.
Qed.
Print Assumptions C71_half_refuted.

(** a node with one module, whose number is increased by one [n] times from the bus *)
Definition one : list op := [OpAdd (desc 49 1 2) 10 [0;0;0;0]%nat [4;5;0;0]%nat].
Definition renumber (old new : N) : op := sysmsg old [32;0;new;0;0;30;116;222].
Fixpoint renumbers (n : nat) (old : N) : list op := match n with O => [] | S k => renumber old (old+1) :: renumbers k (old+1) end.
Definition counted (n : nat) : node := after (one ++ renumbers n 10).
(** C71, finding: 26 number changes from the bus, each sent to a number the node listens to, leave a node that does not
    listen to its own number. *)
Theorem C71_deaf_refuted :
  reached E0 (one ++ renumbers 26 10) (counted 26) /\
  (forall n, (n <= 25)%nat -> m_nr (modat (counted n) 0) = 10 + N.of_nat n /\ hears E0 (counted n) (10 + N.of_nat n)) /\
  free_objects (counted 25) = 0%nat /\ m_nr (modat (counted 26) 0) = 36 /\ (forall mo, ~ passes (counted 26) mo (sys_rx_id 36)).
Proof.
  split; [apply reached_after; vm_compute; reflexivity|]. split.
  { intros n L. do 26 (destruct n as [|n]; [split; [vm_compute; reflexivity|]; split; [vm_compute; reflexivity|]; split; intros _; vm_compute; reflexivity|]). lia. }
  split; [vm_compute; reflexivity|]. split; [vm_compute; reflexivity|].
  intro mo. unfold passes. assert (h_filt (n_hw (counted 26)) = h_filt (n_hw (counted 26))) as Q by reflexivity. revert Q. generalize (h_filt (n_hw (counted 26))) at 1 3. vm_compute h_filt at 1. intros l ->.
  do 32 (destruct mo as [|mo]; [vm_compute; tauto || (vm_compute; discriminate)|]). destruct mo; exact (fun x => x).
Qed.
Print Assumptions C71_deaf_refuted.
Example C71_case : reached E0 one (counted 0) /\ named (counted 0) [109;111;100;49;0] 10 = Some 0%nat /\ complete E0 (counted 0) 0 /\ awake (counted 0) 0 = true /\ n_orc (counted 0) = [] /\ free_objects (counted 0) = 25%nat /\ 
  (forall i, (i < m_nrx (modat (counted 0) 0))%nat -> r_dlc (rxat (modat (counted 0) 0) i) <= 8).
Proof.
  split; [apply (reached_after one); vm_compute; reflexivity|]. split; [vm_compute; reflexivity|]. split; [|split; [vm_compute; reflexivity|split; [vm_compute; reflexivity|split; [vm_compute; reflexivity|]]]].
  - split; [vm_compute; lia|]. split; [|intros _; split; vm_compute; reflexivity]. intros i Hi. assert (i = 0)%nat as -> by (vm_compute in Hi; lia). split; [vm_compute; auto|]. split; vm_compute; reflexivity.
  - intros i Hi. assert (i = 0)%nat as -> by (vm_compute in Hi; lia). vm_compute. discriminate.
Qed.
Example C71_half_case : reached E0 (one ++ renumbers 25 10) (counted 25) /\ named (counted 25) [109;111;100;49;0] 35 = Some 0%nat /\ complete E0 (counted 25) 0 /\ free_objects (counted 25) = 0%nat /\
  exists s', change_nr_ids E0 [109;111;100;49;0] 36 35 (counted 25) = Ret (E_NO_MSG_OBJ, s').
Proof.
  split; [apply reached_after; vm_compute; reflexivity|]. split; [vm_compute; reflexivity|]. split; [|split; [vm_compute; reflexivity|eexists; vm_compute; reflexivity]].
  split; [vm_compute; lia|]. split; [|intros _; split; vm_compute; reflexivity]. intros i Hi. assert (i = 0)%nat as -> by (vm_compute in Hi; lia). split; [vm_compute; auto|]. split; vm_compute; reflexivity.
Qed.
Example C71_bounded_case : exists s1 s2, changed E0 (counted 0) 2 s2 /\ change_nr_ids E0 [109;111;100;49;0] 11 10 (counted 0) = Ret (ERR_OK, s1) /\ change_nr_ids E0 [109;111;100;49;0] 12 11 s1 = Ret (ERR_OK, s2).
Proof.
  assert (exists s1, change_nr_ids E0 [109;111;100;49;0] 11 10 (counted 0) = Ret (ERR_OK, s1) /\ exists s2, change_nr_ids E0 [109;111;100;49;0] 12 11 s1 = Ret (ERR_OK, s2)) as (s1 & H1 & s2 & H2).
  { eexists. split; [vm_compute; reflexivity|]. eexists. vm_compute. reflexivity. }
  exists s1, s2. split; [|auto]. eapply changed_nr; [|exact H2]. eapply changed_nr; [|exact H1]. apply changed_none.
Qed.
