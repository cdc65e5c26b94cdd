(** C107: nodes do not take each other's frames for messages of the master. *)
From Verif Require Import Words ErrModel NodeModel NodeLib NodeSpec NodeHw NodeSysP NodeTx NodeCalmSpec NodeCalm NodeEx NodeTxProps NodeTypeProps NodeBusSpec NodeBusProps NodeMo EchoSpec Echo EchoNr.

(** A frame of a node passes a filter of another node (or of the node itself) only if it is sent under a number above 128. *)
Theorem C107_low_partial : forall E1 E2 pre1 pre2 o s1 s1' new f s2 mo,
  env_ok E1 -> env_ok E2 -> calmly E1 pre1 s1 -> lowly E2 pre2 s2 ->
  step E1 o s1 = Ret (tt, s1') -> added s1 s1' new -> In f (sent new) -> passes s2 mo (fst (fst f)) ->
  exists p, sent_under s1 p f /\ 128 < m_nr (modat s1 p).
Proof.
  intros E1 E2 pre1 pre2 o s1 s1' new f s2 mo H1 H2 C1 C2 S A Hf P.
  destruct (owner_of E1 pre1 o s1 s1' new f H1 C1 S A Hf) as (p & Lp & Aw & Nr & D). exists p. split.
  { split; [exact Lp|]. split; [exact Aw|]. destruct D as [[D _]|D]; auto. }
  destruct (N.lt_ge_cases 128 (m_nr (modat s1 p))) as [L|L]; [exact L|exfalso]. pose proof (FI_lowly E2 pre2 s2 C2 mo) as Sh. unfold shut in Sh. specialize (Sh (fst (fst f))). unfold passes in P. unfold filt in Sh.
  destruct (nth mo (h_filt (n_hw s2)) None) as [[g m]|]; [|exact P]. apply Sh; [|exact P]. destruct D as [[(_ & obj & Lo & ->) M4]|D].
  - right. lia.
  - left. unfold sys_id_of in D. rewrite D. lia.
Qed.
Print Assumptions C107_low_partial.
(** So on a bus of nodes that are given no such numbers, whatever a node sends, no node receives it. *)
Theorem C107_quiet_partial : forall E1 E2 pre1 pre2 o s1 s1' new f s2 mo,
  env_ok E1 -> env_ok E2 -> calmly E1 pre1 s1 -> lowly E1 pre1 s1 -> lowly E2 pre2 s2 ->
  step E1 o s1 = Ret (tt, s1') -> added s1 s1' new -> In f (sent new) -> ~ passes s2 mo (fst (fst f)).
Proof.
  intros E1 E2 pre1 pre2 o s1 s1' new f s2 mo H1 H2 C1 Low C2 S A Hf P.
  destruct (C107_low_partial E1 E2 pre1 pre2 o s1 s1' new f s2 mo H1 H2 C1 C2 S A Hf P) as (p & (Lp & Aw & _) & L). pose proof (NI_lowly E1 pre1 s1 Low p). lia.
Qed.
Print Assumptions C107_quiet_partial.
(** Tables with room for at most four modules: no number above 128 can come up, so the nodes are always deaf to each other. *)
Theorem C107_four_partial : forall E1 E2 pre1 pre2 o s1 s1' new f s2 mo,
  env_ok E1 -> env_ok E2 -> (MAXM E1 <= 4)%nat -> (MAXM E2 <= 4)%nat -> calmly E1 pre1 s1 -> calmly E2 pre2 s2 ->
  step E1 o s1 = Ret (tt, s1') -> added s1 s1' new -> In f (sent new) -> ~ passes s2 mo (fst (fst f)).
Proof.
  intros E1 E2 pre1 pre2 o s1 s1' new f s2 mo H1 H2 M1 M2 C1 C2. apply (C107_quiet_partial E1 E2 pre1 pre2 o s1 s1' new f s2 mo); auto; eapply calm_low; eauto.
Qed.
Print Assumptions C107_four_partial.

Definition lowb (s : node) (o : op) : bool :=
  match o with
  | OpAdd _ _ _ _ => match next_pos s with Some i => (i <? 4)%nat | None => true end
  | OpFrame mo _ _ data _ => negb (byte_at data 0 =? 32) || ((1 <=? byte_at data 2) && (byte_at data 2 <=? 128))
  | OpSetNr _ new _ => (1 <=? new) && (new <=? 128)
  | _ => true
  end.
Lemma lowb_ok E s o : lowb s o = true -> low E s o.
Proof.
  destruct o; cbn [lowb low]; auto.
  - intros H _ Q. rewrite Q in H. cbn [negb orb N.eqb Pos.eqb] in H. apply andb_prop in H. destruct H as [H1 H2]. lia.
  - intros H i Q. rewrite Q in H. apply Nat.ltb_lt in H. auto.
  - intro H. apply andb_prop in H. destruct H. lia.
Qed.
Fixpoint low_runb (ops : list op) (s : node) : bool :=
  match ops with [] => true | o :: t => lowb s o && match step E0 o s with Ret (_, s1) => low_runb t s1 | _ => false end end.
Lemma low_runb_ok ops : forall s s', low_runb ops s = true -> run E0 ops s = Ret (tt, s') -> run_with E0 (low E0) ops s s'.
Proof.
  induction ops as [|o ops IH]; intros s s' H R; cbn [run run_with low_runb] in *; [apply ret_inv in R; destruct R as [_ ->]; reflexivity|].
  apply andb_prop in H. destruct H as [H1 H2]. split; [apply lowb_ok, H1|]. unfold bind in R. destruct (step E0 o s) as [[[] s1]| |]; try discriminate. exists s1. split; [reflexivity|]. apply IH; auto.
Qed.
Lemma lowly_after ops : fine ops = true -> low_runb ops boot0 = true -> lowly E0 ops (after ops).
Proof. intros F H. exists boot0. split; [exact boot0_ok|]. apply low_runb_ok; [exact H|]. unfold fine, after in *. destruct (run E0 ops boot0) as [[[] s]| |]; try discriminate. reflexivity. Qed.

(** *** three nodes: modules 10 and 20; module 2 with four receive objects; five modules and a sixth one with an invalid number, which
    gets the default number 130 of its position *)
Definition node_c : list op := [OpAdd (desc 53 4 1) 2 [0;1;2;3]%nat [4;0;0;0]%nat].
Definition node_d : list op := map (fun k => OpAdd (desc (49 + N.of_nat k) 1 1) (if (k =? 5)%nat then 200 else 60 + N.of_nat k) [8;0;0;0]%nat [7;0;0;0]%nat) (seq 0 6).
Definition ask_all : op := sysmsg 1 [1;0;0;0;0;0;0;0].
Lemma c107_numbers : map m_nr (tab_of (after node_d)) = [60; 61; 62; 63; 64; 130; 127; 127] /\ map m_nr (tab_of (after node_a)) = [10; 20; 127; 127; 127; 127; 127; 127].
Proof. split; vm_compute; reflexivity. Qed.
Example C107_case : calmly E0 node_a (after node_a) /\ lowly E0 node_a (after node_a) /\ lowly E0 node_c (after node_c) /\
  step E0 ask_all (after node_a) = Ret (tt, after (node_a ++ [ask_all])) /\ added (after node_a) (after (node_a ++ [ask_all])) (delta node_a [ask_all]) /\
  map (fun f => fst (fst f)) (sent (delta node_a [ask_all])) = [39; 79].
Proof.
  split; [apply calmly_after; vm_compute; reflexivity|]. split; [apply lowly_after; vm_compute; reflexivity|]. split; [apply lowly_after; vm_compute; reflexivity|]. ex.
Qed.
(** nodes with room for four modules: the one of [node_a], and one whose four modules all have default numbers *)
Definition E4 : env := Env 4 32 50 true true true true 1995998 1 2 3 4 12345678 77 [170;170;170;170;170;170;170;170].
Definition boot4 : node := match can_init E4 250 (static_node E4 mem0 slot_empty []) with Ret (_, s) => s | _ => boot0 end.
Definition after4 (ops : list op) : node := match run E4 ops boot4 with Ret (_, s) => s | _ => boot4 end.
Definition node_e : list op := map (fun k => OpAdd (desc (49 + N.of_nat k) 1 1) 200 [8;0;0;0]%nat [7;0;0;0]%nat) (seq 0 4).
Definition adds_only (ops : list op) : bool := forallb (fun o => match o with OpAdd _ _ _ _ => true | _ => false end) ops.
Lemma after4_calm ops : adds_only ops = true -> match run E4 ops boot4 with Ret _ => true | _ => false end = true -> calmly E4 ops (after4 ops).
Proof.
  intros A H. exists boot4. split; [exists mem0, slot_empty, [], 250; vm_compute; reflexivity|]. unfold after4. revert A H. generalize boot4. induction ops as [|o ops IH]; intros s A H; cbn [run run_with] in *; [reflexivity|].
  cbn [adds_only forallb] in A. apply andb_prop in A. destruct A as [A1 A2]. split; [destruct o; try discriminate A1; exact I|]. unfold bind in *. destruct (step E4 o s) as [[[] s1]| |]; try discriminate H. exists s1. split; [reflexivity|].
  specialize (IH s1 A2 H). destruct (run E4 ops s1) as [[[] s2]| |]; try discriminate H. exact IH.
Qed.
Example C107_four_case : env_ok E4 /\ (MAXM E4 <= 4)%nat /\ calmly E4 node_a (after4 node_a) /\ calmly E4 node_e (after4 node_e) /\ map m_nr (tab_of (after4 node_e)) = [125; 126; 127; 128] /\
  exists s' new, step E4 ask_all (after4 node_a) = Ret (tt, s') /\ added (after4 node_a) s' new /\ map (fun f => fst (fst f)) (sent new) = [39; 79].
Proof.
  split; [unfold env_ok; cbn; lia|]. split; [cbn; lia|]. split; [apply after4_calm; vm_compute; reflexivity|]. split; [apply after4_calm; vm_compute; reflexivity|]. split; [vm_compute; reflexivity|].
  exists (match step E4 ask_all (after4 node_a) with Ret (_, s) => s | _ => boot4 end). exists (skipn (length (n_log (after4 node_a))) (n_log (match step E4 ask_all (after4 node_a) with Ret (_, s) => s | _ => boot4 end))).
  split; [|split; [unfold added; vm_compute; reflexivity|vm_compute; reflexivity]].
  assert (match step E4 ask_all (after4 node_a) with Ret _ => true | _ => false end = true) as H by (vm_compute; reflexivity). revert H. generalize (step E4 ask_all (after4 node_a)). intros [[[] s]| |]; [reflexivity|discriminate|discriminate].
Qed.
(** Refuted with the default number 130: the node's answer to a status request is received by module 2 of another node as its process data. *)
Theorem C107_answer_refuted : exists s1 s2 s1' s2' new f mo,
  calmly E0 node_d s1 /\ lowly E0 node_c s2 /\ numbers_apart s1 s2 /\ step E0 ask_all s1 = Ret (tt, s1') /\ added s1 s1' new /\ In f (sent new) /\
  fst (fst f) = sys_tx_id 130 /\ passes s2 mo (fst (fst f)) /\ step E0 (OpFrame mo (fst (fst f)) (snd (fst f)) (snd f) 0) s2 = Ret (tt, s2') /\
  nth 3 (n_mem s2) [] = repeat 3 8 /\ nth 3 (n_mem s2') [] = snd f.
Proof.
  exists (after node_d), (after node_c), (after (node_d ++ [ask_all])), (after (node_c ++ [OpFrame 7 519 8 [4;109;111;100;54;30;116;222] 0])), (delta node_d [ask_all]), (519, 8, [4;109;111;100;54;30;116;222]), 7%nat.
  split; [apply calmly_after; vm_compute; reflexivity|]. split; [apply lowly_after; vm_compute; reflexivity|]. split; [apply apartb_ok; vm_compute; reflexivity|]. ex; vm_compute; tauto.
Qed.
Print Assumptions C107_answer_refuted.
(** And the process data of a module 2 are received by a module with the default number 130 as its own. *)
Theorem C107_data_refuted : exists s1 s2 s1' s2' new f mo,
  calmly E0 node_c s1 /\ calmly E0 node_d s2 /\ numbers_apart s1 s2 /\ step E0 (request 0 0) s1 = Ret (tt, s1') /\ added s1 s1' new /\ In f (sent new) /\
  fst (fst f) = data_tx_id 2 0 /\ passes s2 mo (fst (fst f)) /\ step E0 (OpFrame mo (fst (fst f)) (snd (fst f)) (snd f) 0) s2 = Ret (tt, s2') /\
  owner s2 mo = Some 5%nat /\ nth 8 (n_mem s2) [] = repeat 8 8 /\ nth 8 (n_mem s2') [] = snd f.
Proof.
  exists (after node_c), (after node_d), (after (node_c ++ [request 0 0])), (after (node_d ++ [OpFrame 15 1028 8 [4;4;4;4;4;4;4;4] 0])), (delta node_c [request 0 0]), (1028, 8, [4;4;4;4;4;4;4;4]), 15%nat.
  split; [apply calmly_after; vm_compute; reflexivity|]. split; [apply calmly_after; vm_compute; reflexivity|]. split; [apply apartb_ok; vm_compute; reflexivity|]. ex; vm_compute; tauto.
Qed.
Print Assumptions C107_data_refuted.
