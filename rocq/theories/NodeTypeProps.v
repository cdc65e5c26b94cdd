(** C69: changes of module types; C06, C07: histories with changes of numbers and types. *)
From Verif Require Import Words ErrModel NodeModel NodeLib NodeSpec NodeTx NodeSend NodeNr NodeNum NodeTxP NodeCalmSpec NodeCalm NodeTypeSpec NodeType NodeEx NodeTxProps.

(** C06, as far as it holds: after calm histories (the number of the last awake module is changed to a free one, the type
    of a configured module is changed while all modules are awake) everything ends and all enabled objects are sent. *)
Theorem C06_calm_history_partial : forall E pre s, env_ok E -> calmly E pre s ->
  (forall o, step E o s <> Hang) /\
  forall id dlc data now s', step E (OpFrame MO_PROCESS id dlc data now) s = Ret (tt, s') ->
  exists new st, added s s' new /\ sent new = cyc_frames s (enabled s) (JUNK E) ++ match pending_errors st with [] => [] | e :: _ => error_tx s e end.
Proof.
  intros E pre s HE C. destruct (calmly_reached E HE _ _ C) as (R & I & _). split; [intro o; exact (ends_step_I E HE o pre s I R)|].
  intros id dlc data now s' H. destruct (request_frames_I E HE pre id dlc data now s s' I R H) as (new & st & A & _ & S). exists new, st. split; assumption.
Qed.
Print Assumptions C06_calm_history_partial.
(** C07, as far as it holds: after a calm history a silent module sends nothing, whatever happens next. *)
Theorem C07_calm_history_partial : forall E pre o s s' new p,
  env_ok E -> calmly E pre s -> step E o s = Ret (tt, s') -> added s s' new -> (p < length (tab_of s))%nat -> awake s p = false ->
  forall f, In f (sent new) ->
  fst (fst f) <> sys_tx_id (m_nr (modat s p)) /\ (forall obj, (obj < 4)%nat -> fst (fst f) <> data_tx_id (m_nr (modat s p)) obj).
Proof. intros E pre o s s' new p HE C. destruct (calmly_reached E HE _ _ C) as (R & I & J). exact (silent_quiet_I E HE pre o s s' new p I J R). Qed.
Print Assumptions C07_calm_history_partial.

(** *** a concrete calm history *)
Definition freshb (s : node) (new : N) : bool := (2 <=? new) && (new <=? 124) && forallb (fun p => negb (in_use (modat s p)) || negb (m_nr (modat s p) =? new)) (seq 0 (length (tab_of s))).
Definition renumb (s : node) (p : nat) : bool := in_use (modat s p) && awake s p && forallb (fun q => (q <=? p)%nat || (m_ntx (modat s q) =? 0)%nat) (seq 0 (length (tab_of s))).
Definition upb (s : node) : bool := forallb (fun p => awake s p && (negb (in_use (modat s p)) || (p <? nmod s)%nat)) (seq 0 (length (tab_of s))).
Definition calmb (s : node) (o : op) : bool :=
  plainb o ||
  match o with
  | OpFrame mo id _ data _ =>
      if byte_at data 0 =? 32 then freshb s (byte_at data 2) && match entry_of_nr s (id_nr id) with Some p => renumb s p | None => true end
      else (byte_at data 0 =? 49) && upb s && match entry_of_nr s (id_nr id) with Some p => in_use (modat s p) | None => true end
  | OpSetNr type new actual => freshb s new && match named s type actual with Some p => renumb s p | None => true end
  | _ => false
  end.
Lemma forall_seq (f : nat -> bool) n p : forallb f (seq 0 n) = true -> (p < n)%nat -> f p = true.
Proof. intros H L. rewrite forallb_forall in H. apply H, in_seq. lia. Qed.
Lemma freshb_ok s new : freshb s new = true -> fresh_nr s new.
Proof.
  unfold freshb. intro H. apply andb_prop in H. destruct H as [H H3]. apply andb_prop in H. destruct H as [H1 H2]. apply N.leb_le in H1, H2. split; [lia|].
  intros p L U. pose proof (forall_seq _ _ _ H3 L) as Q. cbv beta in Q. rewrite U in Q. cbn in Q. apply negb_true_iff, N.eqb_neq in Q. exact Q.
Qed.
Lemma renumb_ok s p : renumb s p = true -> may_renumber s p.
Proof.
  unfold renumb. intro H. apply andb_prop in H. destruct H as [H H3]. apply andb_prop in H. destruct H as [H1 H2]. repeat (split; [assumption|]).
  intros q L1 L2. pose proof (forall_seq _ _ _ H3 L2) as Q. cbv beta in Q. apply orb_prop in Q. destruct Q as [Q|Q]; [apply Nat.leb_le in Q; lia|apply Nat.eqb_eq in Q; exact Q].
Qed.
Lemma upb_ok s : upb s = true -> all_up s.
Proof.
  intro H. split; intros p L; pose proof (forall_seq _ _ _ H L) as Q; cbv beta in Q; apply andb_prop in Q; destruct Q as [Q1 Q2]; [exact Q1|].
  intro U. rewrite U in Q2. cbn in Q2. apply Nat.ltb_lt in Q2. exact Q2.
Qed.
Lemma plain_calm s o : plain E0 o -> calm E0 s o.
Proof. destruct o; cbn [plain calm]; auto; try tauto. Qed.
Lemma calmb_ok s o : calmb s o = true -> calm E0 s o.
Proof.
  intro H. unfold calmb in H. apply orb_prop in H. destruct H as [H|H].
  { apply plain_calm. assert (Forall (plain E0) [o]) as F by (apply plainb_ok; cbn; rewrite H; reflexivity). inversion F; assumption. }
  destruct o; try discriminate; cbn [calm].
  - intros _. destruct (N.eqb_spec (byte_at data 0) 32) as [Q|Q].
    + apply andb_prop in H. destruct H as [H1 H2]. split; [|split; intro; [congruence|destruct H; congruence]]. intros _. split; [apply freshb_ok, H1|]. intros p En. rewrite En in H2. apply renumb_ok, H2.
    + apply andb_prop in H. destruct H as [H H3]. apply andb_prop in H. destruct H as [H1 H2]. apply N.eqb_eq in H1. split; [intro; congruence|]. split; [|intros [?|?]; congruence].
      intros _. split; [apply upb_ok, H2|]. intros p En. rewrite En in H3. exact H3.
  - apply andb_prop in H. destruct H as [H1 H2]. split; [apply freshb_ok, H1|]. intros p En. rewrite En in H2. apply renumb_ok, H2.
Qed.
Fixpoint calm_runb (ops : list op) (s : node) : bool :=
  match ops with [] => true | o :: t => calmb s o && match step E0 o s with Ret (_, s1) => calm_runb t s1 | _ => false end end.
Lemma calm_runb_ok ops : forall s, calm_runb ops s = true -> exists s', run E0 ops s = Ret (tt, s') /\ run_with E0 (calm E0) ops s s'.
Proof.
  induction ops as [|o t IH]; intros s H; cbn [calm_runb] in H; [exists s; split; reflexivity|]. apply andb_prop in H. destruct H as [H1 H2]. apply calmb_ok in H1.
  destruct (step E0 o s) as [[[] s1]| |] eqn:St; try discriminate. destruct (IH s1 H2) as (s' & R & W). exists s'. split; [cbn [run]; unfold bind; rewrite St; exact R|]. split; [exact H1|]. exists s1. split; [exact St|exact W].
Qed.
Lemma calmly_after ops : calm_runb ops boot0 = true -> calmly E0 ops (after ops).
Proof. intro H. exists boot0. split; [exact boot0_ok|]. destruct (calm_runb_ok _ _ H) as (s' & R & W). unfold after. rewrite R. exact W. Qed.

Definition tdesc (k : N) (r t : nat) : modl := Modl [109; 111; 100; k; 0] 0 r r t t (repeat rx8 4) (repeat tx8 4).
Definition reg1 (d : modl) : op := OpTypeAdd [109;111;100;49;0] d [1;2;3;0]%nat [6;7;8;9]%nat (Some 5).
Definition reg2 (d : modl) : op := OpTypeAdd [109;111;100;50;0] d [1;2;3;0]%nat [6;7;8;9]%nat (Some 5).
Definition retype1 : op := sysmsg 10 [49; 109; 111; 100; 57; 30; 116; 222].
Definition retype2 : op := sysmsg 20 [49; 109; 111; 100; 57; 30; 116; 222].
Definition calm_ops : list op :=
  add2 ++ [reg1 (tdesc 57 1 1); sysmsg 20 [32;0;21;0;0;30;116;222]; retype1; OpSilent [109;111;100;50;0] 21 SILENT; request 0 5].
Definition calm_ops2 : list op := calm_ops ++ [OpSilent [109;111;100;50;0] 21 AWAKE].
Example C06_calm_history_partial_case :
  calmly E0 calm_ops2 (after calm_ops2) /\ map m_nr (firstn 2 (tab_of (after calm_ops2))) = [10; 21] /\ map m_type (firstn 1 (tab_of (after calm_ops2))) = [[109;111;100;57;0]] /\
  step E0 (request 0 7) (after calm_ops2) = Ret (tt, after (calm_ops2 ++ [request 0 7])) /\ map fst (sent (delta calm_ops2 [request 0 7])) = [(1060, 8); (1104, 8)].
Proof. split; [apply calmly_after; vm_compute; reflexivity|]. ex. Qed.
Example C07_calm_history_partial_case :
  calmly E0 calm_ops (after calm_ops) /\ awake (after calm_ops) 1 = false /\ m_nr (modat (after calm_ops) 1) = 21 /\
  step E0 (request 0 7) (after calm_ops) = Ret (tt, after (calm_ops ++ [request 0 7])) /\ map fst (sent (delta calm_ops [request 0 7])) = [(1060, 8)].
Proof. split; [apply calmly_after; vm_compute; reflexivity|]. ex. Qed.

(** C06, finding: a change of the type of a module while a later module is silent, and the later module woken up
    afterwards: the next process request never ends. *)
Definition woken_later : list op := add2 ++ [reg1 (tdesc 57 1 2); sleep 50 20; retype1; wake 50 20].
Theorem C06_type_change_refuted : reached E0 woken_later (after woken_later) /\ step E0 (request 0 0) (after woken_later) = Hang /\
  forall fuel, send_loop E0 fuel (x_reg (n_tx (after woken_later))) 0 (JUNK E0) (after woken_later) = Hang.
Proof.
  split; [simple apply reached_after; vm_compute; reflexivity|]. split; [vm_compute; reflexivity|].
  intro fuel. destruct fuel as [|fuel]; [reflexivity|]. replace (x_reg (n_tx (after woken_later))) with 19 by (vm_compute; reflexivity).
  assert (exists c1 s1 c2 s2, send_one E0 0 (JUNK E0) (after woken_later) = Ret (c1, s1) /\ send_one E0 1 c1 s1 = Ret (c2, s2) /\ x_end (n_tx s2) = 1%nat) as (c1 & s1 & c2 & s2 & H1 & H2 & H3).
  { do 4 eexists. split; [vm_compute; reflexivity|]. split; [vm_compute; reflexivity|vm_compute; reflexivity]. }
  rewrite (loop_send _ 19 _ _ _ _ _ eq_refl H1). destruct fuel as [|fuel]; [reflexivity|]. change (N.shiftr 19 1) with 9. rewrite (loop_send _ 9 _ _ _ _ _ eq_refl H2).
  apply loop_stuck; [discriminate|reflexivity|]. rewrite H3. apply le_n.
Qed.
Print Assumptions C06_type_change_refuted.

(** C69: an entry changes its type, its objects or its pointers on a received frame only if the frame is a change-type
    message for it. *)
Theorem C69_authorised_partial : forall E pre mo id dlc data now s s' q,
  reached E pre s -> step E (OpFrame mo id dlc data now) s = Ret (tt, s') -> shape (modat s' q) <> shape (modat s q) -> exists c, type_msg E s mo id dlc data q c.
Proof. exact type_authorised. Qed.
Print Assumptions C69_authorised_partial.
(** C69: such a message gives the entry the registered type, objects and pointers and calls the registered function with
    the type, and changes neither the number, nor other entries, silent states, application data or errors. *)
Theorem C69_effect_partial : forall E pre mo id dlc data now s s' p c,
  reached E pre s -> step E (OpFrame mo id dlc data now) s = Ret (tt, s') -> type_msg E s mo id dlc data p c ->
  took_type c (modat s p) (modat s' p) /\ (forall q, q <> p -> modat s' q = modat s q) /\ k_silent (n_cfg s') = k_silent (n_cfg s) /\ nmod s' = nmod s /\
  n_mem s' = n_mem s /\ n_err s' = n_err s /\ n_hw s' = n_hw s /\ added s s' (match c_cb c with Some f => [EvType f (tl data)] | None => [] end).
Proof. exact type_effect. Qed.
Print Assumptions C69_effect_partial.
(** C69: if it arrives while all modules are awake, in a calm history, the next cycle consists of the objects of all
    modules with the identifiers of their numbers and the lengths of their (new) types. *)
Theorem C69_sends_partial : forall E pre mo id dlc data now s s' p c rid rdlc rdata rnow s2,
  env_ok E -> calmly E pre s -> all_up s -> in_use (modat s p) = true -> type_msg E s mo id dlc data p c ->
  step E (OpFrame mo id dlc data now) s = Ret (tt, s') -> step E (OpFrame MO_PROCESS rid rdlc rdata rnow) s' = Ret (tt, s2) ->
  exists new st, added s' s2 new /\ sent new = cyc_frames s' (enabled s') (JUNK E) ++ match pending_errors st with [] => [] | e :: _ => error_tx s' e end /\
    (forall o, In (p, o) (enabled s') <-> (o < m_ntx (c_desc c))%nat).
Proof.
  intros E pre mo id dlc data now s s' p c rid rdlc rdata rnow s2 HE C Au Up T H1 H2. destruct (calmly_reached E HE _ _ C) as (R & _ & _).
  assert (calmly E (pre ++ [OpFrame mo id dlc data now]) s') as C'.
  { destruct C as (s0 & B & W). exists s0. split; [exact B|]. eapply run_with_app; eauto. destruct T as (_ & _ & Hc & _ & En & _). intros _. split; [intro; congruence|]. split; [|intros [?|?]; congruence].
    intros _. split; [exact Au|]. intros q Q. congruence. }
  destruct (C06_calm_history_partial E _ _ HE C') as [_ F]. destruct (F _ _ _ _ _ H2) as (new & st & A & S). exists new, st. split; [exact A|]. split; [exact S|].
  destruct (type_effect E _ _ _ _ _ _ _ _ _ _ R H1 T) as ((_ & _ & _ & Nt & _) & _ & Ks & _ & _ & _ & _). pose proof (NodeHw.WF_reached E _ _ R) as W. destruct (calmly_reached E HE _ _ C') as (R' & _ & _). pose proof (NodeHw.WF_reached E _ _ R') as W'.
  destruct T as (_ & _ & _ & _ & En & _). pose proof (entry_first _ _ _ En) as (Lp & _).
  assert (awake s' p = true) as Aw. { unfold awake, silat. rewrite Ks. apply Au, Lp. }
  intro o. split; intro Ho.
  - apply enabled_in in Ho. rewrite Nt in Ho. tauto.
  - unfold enabled. apply in_flat_map. exists p. split; [apply in_seq; rewrite (tab_len E s' W'), <- (tab_len E s W); lia|]. rewrite Aw. apply in_map. apply in_seq. rewrite Nt. lia.
Qed.
Print Assumptions C69_sends_partial.

Example C69_case :
  let pre := add2 ++ [reg1 (tdesc 57 1 1)] in
  let f := retype1 in let c := ChEnt (tdesc 57 1 1) [1;2;3;0]%nat [6;7;8;9]%nat (Some 5) in
  calmly E0 pre (after pre) /\ all_up (after pre) /\ in_use (modat (after pre) 0) = true /\ step E0 f (after pre) = Ret (tt, after (pre ++ [f])) /\
  type_msg E0 (after pre) MO_SYS1 (sys_id 10) 8 [49; 109; 111; 100; 57; 30; 116; 222] 0 c /\ shape (modat (after (pre ++ [f])) 0) <> shape (modat (after pre) 0) /\
  step E0 (request 0 7) (after (pre ++ [f])) = Ret (tt, after ((pre ++ [f]) ++ [request 0 7])) /\
  sent (delta (pre ++ [f]) [request 0 7]) = [(1060, 8, [6;6;6;6;6;6;6;6]); (1100, 8, [6;6;6;6;6;6;6;6])].
Proof.
  cbn zeta. split; [apply calmly_after; vm_compute; reflexivity|]. split; [apply upb_ok; vm_compute; reflexivity|]. split; [vm_compute; reflexivity|]. split; [simple apply after_step; vm_compute; reflexivity|].
  split; [|split; [intro Q; apply (f_equal (fun x => fst (fst (fst (fst x))))) in Q; vm_compute in Q; discriminate|ex]].
  unfold type_msg. repeat (split; [vm_compute; congruence|]). vm_compute. reflexivity.
Qed.

(** C69, finding: a message while the module is silent switches the delivery of received data on again: the module is
    still silent, and a data frame for it overwrites the application's data. *)
Definition silent_retyped : list op := add2 ++ [reg2 (tdesc 57 2 1); sleep 50 20; retype2].
Definition frame_2_1 : op := rx_frame mo_2_1 20 1 [1;2;3;4;5;6;7;8].
Theorem C69_silent_receives_refuted :
  reached E0 silent_retyped (after silent_retyped) /\ awake (after silent_retyped) 1 = false /\
  step E0 frame_2_1 (after silent_retyped) = Ret (tt, after (silent_retyped ++ [frame_2_1])) /\
  nth 2 (n_mem (after silent_retyped)) [] = [0;0;0;0;0;0;0;0] /\ nth 2 (n_mem (after (silent_retyped ++ [frame_2_1]))) [] = [1;2;3;4;5;6;7;8].
Proof. ex. Qed.
Print Assumptions C69_silent_receives_refuted.
(** C69, finding: the additional transmit objects of a type taken while silent are sent with identifier 0 and without data
    after the module was woken up. *)
Definition silent_more : list op := add2 ++ [reg1 (tdesc 57 1 3); sleep 49 10; retype1; wake 57 10].
Theorem C69_identifier_zero_refuted :
  reached E0 silent_more (after silent_more) /\ awake (after silent_more) 0 = true /\ m_ntx (modat (after silent_more) 0) = 3%nat /\
  step E0 (request 0 0) (after silent_more) = Ret (tt, after (silent_more ++ [request 0 0])) /\
  map fst (sent (delta silent_more [request 0 0])) = [(1060, 8); (1061, 8); (0, 0); (1100, 8)].
Proof. ex. Qed.
Print Assumptions C69_identifier_zero_refuted.
(** C69, finding: no message object is set up for additional receive objects: no message object accepts their frames. *)
Definition more_rx : list op := add2 ++ [reg1 (tdesc 57 3 1); retype1].
Theorem C69_not_received_refuted :
  reached E0 more_rx (after more_rx) /\ m_nrx (modat (after more_rx) 0) = 3%nat /\ (forall mo, ~ passes (after more_rx) mo (data_id 10 2)).
Proof.
  split; [simple apply reached_after; vm_compute; reflexivity|]. split; [vm_compute; reflexivity|].
  intro mo. unfold passes. remember (h_filt (n_hw (after more_rx))) as l eqn:L. vm_compute in L. subst l.
  do 32 (destruct mo as [|mo]; [vm_compute; tauto || (vm_compute; discriminate)|]). destruct mo; exact (fun x => x).
Qed.
Print Assumptions C69_not_received_refuted.
(** C69, finding: a change of the number after that sets the message object of the process requests up for data: the node
    does not hear process requests (identifier 1) any more. *)
Definition deaf : list op := more_rx ++ [sysmsg 10 [32;0;11;0;0;30;116;222]].
Theorem C69_deaf_refuted :
  reached E0 deaf (after deaf) /\ passes (after more_rx) MO_PROCESS 1 /\ m_nr (modat (after deaf) 0) = 11 /\ (forall mo, ~ passes (after deaf) mo 1).
Proof.
  split; [simple apply reached_after; vm_compute; reflexivity|]. split; [vm_compute; reflexivity|]. split; [vm_compute; reflexivity|].
  intro mo. unfold passes. remember (h_filt (n_hw (after deaf))) as l eqn:L. vm_compute in L. subst l.
  do 32 (destruct mo as [|mo]; [vm_compute; tauto || (vm_compute; discriminate)|]). destruct mo; exact (fun x => x).
Qed.
Print Assumptions C69_deaf_refuted.
(** C69, finding: the supervised numbers of objects are copied from the registered descriptor instead of its numbers of
    objects; a descriptor that [OpAdd] accepts (supervised numbers 0) gives a module without supervision of its data. *)
Definition unsupervised : list op := add2 ++ [reg1 (desc 57 1 1); retype1].
Theorem C69_not_supervised_refuted :
  reached E0 unsupervised (after unsupervised) /\ awake (after unsupervised) 0 = true /\ m_nrx (modat (after unsupervised) 0) = 1%nat /\ listening (after unsupervised) 0 = 0%nat /\
  reached E0 [OpAdd (desc 57 1 1) 10 [1;2;3;0]%nat [6;7;8;9]%nat] (after [OpAdd (desc 57 1 1) 10 [1;2;3;0]%nat [6;7;8;9]%nat]) /\
  listening (after [OpAdd (desc 57 1 1) 10 [1;2;3;0]%nat [6;7;8;9]%nat]) 0 = 1%nat.
Proof. ex. Qed.
Print Assumptions C69_not_supervised_refuted.
