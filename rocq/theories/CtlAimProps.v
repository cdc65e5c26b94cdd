(** C110: a control message reaches the module it is meant for, once on the bus. *)
From Verif Require Import Words ErrModel NodeModel NodeLib NodeSpec NodeInv NodeHw NodeSysP NodeTx NodeNum NodeEx NodeMo NodeServModel NodeServSpec NodeServ NodeServProps NodeBusSpec NodeBusProps NodeCfgProps EchoSpec Echo AimSpec Aim AimProps CtlAim.

(** A node takes a control message only if it has a module with the number. *)
Theorem C110_addressee : forall E ops s mo nr, env_ok E -> plainly E ops s -> 2 <= nr <= 128 -> passes s mo (ctl_rx_id nr) ->
  exists p, (p < length (tab_of s))%nat /\ in_use (modat s p) = true /\ m_nr (modat s p) = nr.
Proof. intros E ops s mo nr HE P Hn Q. exact (proj2 (ctl_filter E HE ops s mo nr P Hn Q)). Qed.
Print Assumptions C110_addressee.
(** There is at most one message object for it in all nodes of a bus. *)
Theorem C110_one_place : forall bus nr i j a b mo mo', on_bus bus -> 2 <= nr <= 128 ->
  nth_error bus i = Some a -> nth_error bus j = Some b -> passes (snd a) mo (ctl_rx_id nr) -> passes (snd b) mo' (ctl_rx_id nr) -> i = j /\ mo = mo'.
Proof.
  intros bus nr i j a b mo mo' [B1 B2] Hn Ha Hb Pa Pb. destruct (B1 a (nth_error_In _ _ Ha)) as [Ea La]. destruct (B1 b (nth_error_In _ _ Hb)) as [Eb Lb].
  destruct (C110_addressee _ _ _ _ _ Ea La Hn Pa) as (p & Lp & Up & Np). destruct (C110_addressee _ _ _ _ _ Eb Lb Hn Pb) as (q & Lq & Uq & Nq).
  destruct (Nat.eq_dec i j) as [<-|Nij]; [|exfalso; apply (B2 i j a b Nij Ha Hb p q Up Uq); congruence]. split; [reflexivity|]. assert (a = b) as <- by congruence.
  exact (ctl_one _ Ea _ _ _ _ _ La Hn Pa Pb).
Qed.
Print Assumptions C110_one_place.
(** The module with all its message objects gets it under its number, and no other message object on the bus takes it. *)
Theorem C110_delivered : forall bus nr i a p dlc data now, on_bus bus -> 2 <= nr <= 128 -> nth_error bus i = Some a ->
  small_history (fst (fst a)) (snd (fst a)) (snd a) -> ASY (fst (fst a)) = true -> complete (fst (fst a)) (snd a) p -> m_nr (modat (snd a) p) = nr -> dlc <= 8 ->
  passes (snd a) (ctl_mo (snd a) p) (ctl_rx_id nr) /\
  main_rx (fst (fst a)) false (ctl_mo (snd a) p) (ctl_rx_id nr) dlc data now (snd a) = Ret ([HCtl nr data], snd a) /\
  (forall j b mo, nth_error bus j = Some b -> passes (snd b) mo (ctl_rx_id nr) -> j = i /\ mo = ctl_mo (snd a) p).
Proof.
  intros bus nr i a p dlc data now B Hn Ha Sh As C <- Hd. assert (passes (snd a) (ctl_mo (snd a) p) (ctl_rx_id (m_nr (modat (snd a) p)))) as P.
  { destruct C as (_ & _ & C). destruct (C As) as (_ & L). unfold passes, listens in *. rewrite L. rewrite N.lxor_nilpotent. reflexivity. }
  split; [exact P|]. destruct (proj1 B a (nth_error_In _ _ Ha)) as [Ea _]. split; [eapply C84_control_delivered_partial; eauto; lia|].
  intros j b mo Hb Pb. eapply C110_one_place; eauto.
Qed.
Print Assumptions C110_delivered.
(** All nodes without the module stay as they are. *)
Theorem C110_others : forall E ops s nr dlc data now s', env_ok E -> plainly E ops s -> 2 <= nr <= 128 ->
  (forall p, (p < length (tab_of s))%nat -> in_use (modat s p) = true -> m_nr (modat s p) <> nr) -> meets E s (ctl_rx_id nr) dlc data now s' -> s' = s.
Proof.
  intros E ops s nr dlc data now s' HE P Hn Na [(mo & Q & _)|[_ ->]]; [exfalso|reflexivity]. destruct (C110_addressee E ops s mo nr HE P Hn Q) as (p & Lp & Up & Np). exact (Na p Lp Up Np).
Qed.
Print Assumptions C110_others.
(** The limits 2 and the unchanged numbers matter: before the first addition, a node without any module takes the control messages of number 1, *)
Theorem C110_one_refuted : exists s mo, plainly E0 [] s /\ (forall p, in_use (modat s p) = false) /\ passes s mo (ctl_rx_id 1).
Proof.
  exists (after []), MO_ASYNC_DATA. split; [split; [constructor|apply reached_after; vm_compute; reflexivity]|].
  assert (forall s, forallb (fun m => negb (in_use m)) (tab_of s) = true -> in_use modl0 = false -> forall p, in_use (modat s p) = false) as K.
  { intros s H H0 p. destruct (nth_in_or_default p (tab_of s) modl0) as [Q|Q]; unfold modat; [|rewrite Q; exact H0]. rewrite forallb_forall in H. specialize (H _ Q). apply negb_true_iff in H. exact H. }
  split; [apply K; vm_compute; reflexivity|]. vm_compute. reflexivity.
Qed.
Print Assumptions C110_one_refuted.

(** *** the nodes with modules 10, 20 and 30, 40: the control message for module 40 *)
Lemma small_b : small_history E0 node_b (after node_b).
Proof.
  apply (small_after [nth 0 node_b (OpBaud 0)] (nth 1 node_b (OpBaud 0))); [vm_compute; reflexivity| |].
  - apply (small_after [] (nth 0 node_b (OpBaud 0))); [vm_compute; reflexivity|exact small_nil|]. apply small_add with (i := 0%nat); vm_compute; reflexivity.
  - apply small_add with (i := 1%nat); vm_compute; reflexivity.
Qed.
Example C110_case : on_bus two_nodes /\ nth_error two_nodes 1 = Some (E0, node_b, after node_b) /\ small_history E0 node_b (after node_b) /\ ASY E0 = true /\ complete E0 (after node_b) 1 /\
  m_nr (modat (after node_b) 1) = 40 /\ ctl_mo (after node_b) 1 = 8%nat /\ (forall p, (p < length (tab_of (after node_a)))%nat -> in_use (modat (after node_a) p) = true -> m_nr (modat (after node_a) p) <> 40).
Proof.
  split; [exact two_nodes_ok|]. split; [reflexivity|]. split; [exact small_b|]. split; [reflexivity|]. split; [exact complete_b1|]. split; [vm_compute; reflexivity|]. split; [vm_compute; reflexivity|].
  assert (forall s, forallb (fun m => negb (m_nr m =? 40)) (tab_of s) = true -> forall p, (p < length (tab_of s))%nat -> in_use (modat s p) = true -> m_nr (modat s p) <> 40) as K.
  { intros s H p Lp _ Q. rewrite forallb_forall in H. specialize (H (modat s p) (nth_In _ _ Lp)). rewrite Q in H. discriminate. }
  apply K. vm_compute. reflexivity.
Qed.
