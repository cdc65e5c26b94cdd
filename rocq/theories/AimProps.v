(** C108: process data of the master reaches the module it is meant for and no other one on the bus. *)
From Verif Require Import Words ErrModel NodeModel NodeLib NodeSpec NodeInv NodeHw NodeSysP NodeTx NodeNum NodeEx NodeMo NodeBusSpec NodeBusProps NodeCfgProps EchoSpec Echo AimSpec Aim.

(** An object that takes a frame of process data belongs to the module and is the object the frame names. *)
Theorem C108_addressee : forall E ops s mo nr obj, env_ok E -> plainly E ops s -> 1 <= nr <= 128 -> (obj < 4)%nat ->
  passes s mo (data_rx_id nr obj) -> exists p, addressed s p nr obj /\ rx_mo s p obj = mo.
Proof. intros E ops s mo nr obj HE. exact (rx_meets E HE ops s mo nr obj). Qed.
Print Assumptions C108_addressee.
(** There is at most one such object in all nodes of a bus. *)
Theorem C108_one_place : forall bus nr obj i j a b mo mo', on_bus bus -> 1 <= nr <= 128 -> (obj < 4)%nat ->
  nth_error bus i = Some a -> nth_error bus j = Some b -> passes (snd a) mo (data_rx_id nr obj) -> passes (snd b) mo' (data_rx_id nr obj) -> i = j /\ mo = mo'.
Proof.
  intros bus nr obj i j a b mo mo' [B1 B2] Hn Ho Ha Hb Pa Pb. destruct (B1 a (nth_error_In _ _ Ha)) as [Ea La]. destruct (B1 b (nth_error_In _ _ Hb)) as [Eb Lb].
  destruct (rx_meets _ Ea _ _ _ _ _ La Hn Ho Pa) as (p & (Lp & Up & Np & _) & Mp). destruct (rx_meets _ Eb _ _ _ _ _ Lb Hn Ho Pb) as (q & (Lq & Uq & Nq & _) & Mq).
  destruct (Nat.eq_dec i j) as [<-|Nij]; [|exfalso; apply (B2 i j a b Nij Ha Hb p q Up Uq); congruence]. split; [reflexivity|]. assert (a = b) as <- by congruence.
  destruct La as [F R]. pose proof (NrI_reached _ _ _ F R) as I. assert (length (tab_of (snd a)) = MAXM (fst (fst a))) as Ln by (apply tab_len, (WF_reached _ _ _ R)). rewrite Ln in Lp, Lq.
  destruct (Nat.lt_trichotomy p q) as [L|[->|L]]; [exfalso; apply (nr_diff _ _ I p q L Lq Up Uq); congruence|congruence|exfalso; apply (nr_diff _ _ I q p L Lp Uq Up); congruence].
Qed.
Print Assumptions C108_one_place.
(** A module with all its objects has this place, and takes the data when their length is right. *)
Theorem C108_delivered : forall bus nr obj i a p dlc data now, on_bus bus -> 1 <= nr <= 128 -> (obj < 4)%nat ->
  nth_error bus i = Some a -> addressed (snd a) p nr obj -> complete (fst (fst a)) (snd a) p -> dlc = r_dlc_s (rxat (modat (snd a) p) obj) ->
  passes (snd a) (rx_mo (snd a) p obj) (data_rx_id nr obj) /\
  accepted (fst (fst a)) (snd a) (OpFrame (rx_mo (snd a) p obj) (data_rx_id nr obj) dlc data now) p obj = true /\
  (forall j b mo, nth_error bus j = Some b -> passes (snd b) mo (data_rx_id nr obj) -> j = i /\ mo = rx_mo (snd a) p obj).
Proof.
  intros bus nr obj i a p dlc data now B Hn Ho Ha (Lp & Up & <- & Lo) C Hd. assert (passes (snd a) (rx_mo (snd a) p obj) (data_rx_id (m_nr (modat (snd a) p)) obj)) as P.
  { destruct C as (_ & C & _). destruct (C obj Lo) as (_ & _ & L). unfold passes, listens in *. rewrite L. rewrite N.lxor_nilpotent. reflexivity. }
  split; [exact P|]. destruct (proj1 B a (nth_error_In _ _ Ha)) as [Ea [_ R]]. split; [eapply C34_dispatched; eauto; lia|].
  intros j b mo Hb Pb. eapply C108_one_place; eauto.
Qed.
Print Assumptions C108_delivered.
(** All nodes without the module stay as they are. *)
Theorem C108_others : forall E ops s nr obj dlc data now s', env_ok E -> plainly E ops s -> 1 <= nr <= 128 -> (obj < 4)%nat ->
  (forall p, ~ addressed s p nr obj) -> meets E s (data_rx_id nr obj) dlc data now s' -> s' = s.
Proof.
  intros E ops s nr obj dlc data now s' HE P Hn Ho Na [(mo & Q & _)|[_ ->]]; [exfalso|reflexivity]. destruct (rx_meets E HE ops s mo nr obj P Hn Ho Q) as (p & A & _). apply (Na p A).
Qed.
Print Assumptions C108_others.

(** *** the nodes with modules 10, 20 and 30, 40: the frame for object 1 of module 40 *)
Definition two_nodes : list (env * list op * node) := [(E0, node_a, after node_a); (E0, node_b, after node_b)].
Lemma apart_swap s1 s2 : numbers_apart s1 s2 -> numbers_apart s2 s1.
Proof. intros H p q U V Q. apply (H q p V U). congruence. Qed.
Lemma two_nodes_ok : on_bus two_nodes.
Proof.
  assert (numbers_apart (after node_a) (after node_b)) as A by (apply apartb_ok; vm_compute; reflexivity). split.
  - intros n [<-|[<-|[]]]; (split; [exact E0_ok|]); (split; [apply plainb_ok; vm_compute; reflexivity|apply reached_after; vm_compute; reflexivity]).
  - intros i j a b Nij Ha Hb. destruct i as [|[|i]]; destruct j as [|[|j]]; try (exfalso; apply Nij; reflexivity); cbn [two_nodes nth_error] in Ha, Hb; try (destruct i; discriminate); try (destruct j; discriminate).
    + injection Ha as <-. injection Hb as <-. exact A.
    + injection Ha as <-. injection Hb as <-. apply apart_swap, A.
Qed.
Lemma complete_b1 : complete E0 (after node_b) 1.
Proof.
  split; [vm_compute; lia|]. split; [|intros _; split; vm_compute; reflexivity].
  assert (m_nrx (modat (after node_b) 1) = 2%nat) as -> by (vm_compute; reflexivity). intros i Hi.
  destruct i as [|[|i]]; [| |lia]; (split; [|split; vm_compute; reflexivity]); unfold registered.
  - assert (h_rxtab (n_hw (after node_b)) = [(1, 0); (5, 1); (7, 1)]%nat) as -> by (vm_compute; reflexivity). assert (rx_mo (after node_b) 1 0 = 5%nat) as -> by (vm_compute; reflexivity). cbn. auto.
  - assert (h_rxtab (n_hw (after node_b)) = [(1, 0); (5, 1); (7, 1)]%nat) as -> by (vm_compute; reflexivity). assert (rx_mo (after node_b) 1 1 = 7%nat) as -> by (vm_compute; reflexivity). cbn. auto.
Qed.
Example C108_case : on_bus two_nodes /\ nth_error two_nodes 1 = Some (E0, node_b, after node_b) /\ addressed (after node_b) 1 40 1 /\ complete E0 (after node_b) 1 /\ r_dlc_s (rxat (modat (after node_b) 1) 1) = 8 /\
  rx_mo (after node_b) 1 1 = 7%nat /\ (forall p, ~ addressed (after node_a) p 40 1).
Proof.
  split; [exact two_nodes_ok|]. split; [reflexivity|]. split; [unfold addressed; vm_compute; repeat split; lia|]. split; [|split; [vm_compute; reflexivity|split; [vm_compute; reflexivity|]]].
  - exact complete_b1.
  - assert (forall s, forallb (fun m => negb (m_nr m =? 40)) (tab_of s) = true -> forall p, ~ addressed s p 40 1) as K.
    { intros s H p (Lp & _ & Q & _). rewrite forallb_forall in H. specialize (H (modat s p) (nth_In _ _ Lp)). rewrite Q in H. discriminate. }
    apply K. vm_compute. reflexivity.
Qed.
