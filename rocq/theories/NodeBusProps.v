(** C93: a node sends under the numbers of its own modules, so that nodes with different numbers never send the same
    identifier. *)
From Verif Require Import Words ErrModel NodeModel NodeLib NodeSpec NodeHw NodeSysP NodeTx NodeSend NodeNr NodeNum NodeTxP NodeCalmSpec NodeCalm NodeEx NodeTxProps NodeTypeProps NodeBusSpec.

Lemma owner_of E pre o s s' new f : env_ok E -> calmly E pre s -> step E o s = Ret (tt, s') -> added s s' new -> In f (sent new) ->
  exists p, (p < length (tab_of s))%nat /\ awake s p = true /\ 2 <= m_nr (modat s p) <= 255 /\ (data_id_of s p (fst (fst f)) /\ (m_ntx (modat s p) <= 4)%nat \/ sys_id_of s p (fst (fst f))).
Proof.
  intros HE C H A Hf. destruct (calmly_reached E HE _ _ C) as (R & I & J). pose proof (WF_reached E _ _ R) as W.
  destruct (sent_step E HE _ _ _ _ _ I R H A f Hf) as [(q & o' & Hi & Q)|(nr & Hs & Q)].
  - apply enabled_in in Hi. destruct Hi as (Lq & Aq & Oq). exists q. pose proof Lq as Lq'. rewrite (tab_len E s W) in Lq'. pose proof (ti_nr E s I q Lq') as Nq.
    split; [exact Lq|]. split; [exact Aq|]. split; [exact Nq|]. left. split.
    + split; [|exists o'; split; [exact Oq|exact Q]].
      destruct (in_use (modat s q)) eqn:U; auto. apply (ti_unused E s I) in U; auto. destruct U as [U _]. unfold ntx in U. lia.
    + pose proof (modat_ok E s q W) as (_ & M4 & _). unfold NOBJ in M4. lia.
  - unfold speaks in Hs. destruct (entry_of_nr s nr) as [q|] eqn:En; [|discriminate]. pose proof (entry_first s nr q En) as (Lq & Qn & _).
    exists q. pose proof Lq as Lq'. rewrite (tab_len E s W) in Lq'. pose proof (ti_nr E s I q Lq') as Nq.
    split; [exact Lq|]. split; [exact Hs|]. split; [exact Nq|]. right. unfold sys_id_of. rewrite Q, Qn. rewrite Qn in Nq. rewrite can_ident_sys by lia. reflexivity.
Qed.

(** every frame carries an identifier of an awake entry of the node's own table, and data are those of a configured module,
    after every calm history and whatever happens next *)
Theorem C93_own_partial : forall E pre o s s' new f,
  env_ok E -> calmly E pre s -> step E o s = Ret (tt, s') -> added s s' new -> In f (sent new) ->
  exists p, (p < length (tab_of s))%nat /\ awake s p = true /\ (data_id_of s p (fst (fst f)) \/ sys_id_of s p (fst (fst f))).
Proof.
  intros E pre o s s' new f HE C H A Hf. destruct (owner_of E pre o s s' new f HE C H A Hf) as (p & L & Aw & _ & [[D _]|D]); exists p; auto.
Qed.
Print Assumptions C93_own_partial.

(** two nodes, each with its own configuration and history, no number in common: whatever either does next, an identifier sent by
    both is the system identifier of an entry that one of them does not use *)
Theorem C93_apart_partial : forall E1 E2 pre1 pre2 o1 o2 s1 s2 s1' s2' new1 new2 f1 f2,
  env_ok E1 -> env_ok E2 -> calmly E1 pre1 s1 -> calmly E2 pre2 s2 -> numbers_apart s1 s2 ->
  step E1 o1 s1 = Ret (tt, s1') -> added s1 s1' new1 -> In f1 (sent new1) ->
  step E2 o2 s2 = Ret (tt, s2') -> added s2 s2' new2 -> In f2 (sent new2) ->
  fst (fst f1) = fst (fst f2) ->
  exists p q, (p < length (tab_of s1))%nat /\ (q < length (tab_of s2))%nat /\ (in_use (modat s1 p) = false \/ in_use (modat s2 q) = false) /\
    m_nr (modat s1 p) = m_nr (modat s2 q) /\ sys_id_of s1 p (fst (fst f1)) /\ sys_id_of s2 q (fst (fst f2)).
Proof.
  intros E1 E2 pre1 pre2 o1 o2 s1 s2 s1' s2' new1 new2 f1 f2 H1 H2 C1 C2 N S1 A1 F1 S2 A2 F2 Q.
  destruct (owner_of E1 _ _ _ _ _ _ H1 C1 S1 A1 F1) as (p & Lp & Ap & Np & Dp). destruct (owner_of E2 _ _ _ _ _ _ H2 C2 S2 A2 F2) as (q & Lq & Aq & Nq & Dq).
  exists p, q. destruct Dp as [[(Up & x & Hx & Dp) Mp]|Dp], Dq as [[(Uq & y & Hy & Dq) Mq]|Dq]; unfold sys_id_of in *.
  - exfalso. apply (N p q Up Uq). lia.
  - exfalso. lia.
  - exfalso. lia.
  - assert (m_nr (modat s1 p) = m_nr (modat s2 q)) as K by lia.
    split; [exact Lp|]. split; [exact Lq|]. split; [|auto]. destruct (in_use (modat s1 p)) eqn:Up, (in_use (modat s2 q)) eqn:Uq; auto. exfalso. exact (N p q Up Uq K).
Qed.
Print Assumptions C93_apart_partial.

(** hence without spare entries no identifier is sent by both, and process data of one are never mistaken for those of the other *)
Theorem C93_disjoint_partial : forall E1 E2 pre1 pre2 o1 o2 s1 s2 s1' s2' new1 new2 f1 f2,
  env_ok E1 -> env_ok E2 -> calmly E1 pre1 s1 -> calmly E2 pre2 s2 -> numbers_apart s1 s2 ->
  (no_spare s1 /\ no_spare s2) \/ 1024 <= fst (fst f1) \/ 1024 <= fst (fst f2) ->
  step E1 o1 s1 = Ret (tt, s1') -> added s1 s1' new1 -> In f1 (sent new1) ->
  step E2 o2 s2 = Ret (tt, s2') -> added s2 s2' new2 -> In f2 (sent new2) ->
  fst (fst f1) <> fst (fst f2).
Proof.
  intros E1 E2 pre1 pre2 o1 o2 s1 s2 s1' s2' new1 new2 f1 f2 H1 H2 C1 C2 N Sp S1 A1 F1 S2 A2 F2 Q.
  destruct (C93_apart_partial E1 E2 pre1 pre2 o1 o2 s1 s2 s1' s2' new1 new2 f1 f2 H1 H2 C1 C2 N S1 A1 F1 S2 A2 F2 Q) as (p & q & Lp & Lq & U & K & Dp & Dq).
  destruct Sp as [[P1 P2]|Sp].
  - rewrite (P1 p Lp), (P2 q Lq) in U. destruct U; discriminate.
  - destruct (calmly_reached E1 H1 _ _ C1) as (R & I & _). pose proof (WF_reached E1 _ _ R) as W. rewrite (tab_len E1 s1 W) in Lp. pose proof (ti_nr E1 s1 I p Lp) as Np.
    unfold sys_id_of in *. lia.
Qed.
Print Assumptions C93_disjoint_partial.

(** *** concrete nodes: two nodes with the modules 10, 20 and 30, 40; two nodes without spare entries, 10..17 and 30..37 *)
Definition node_a : list op := add2.
Definition node_b : list op := [OpAdd (desc 51 1 2) 30 [0;0;0;0]%nat [4;5;0;0]%nat; OpAdd (desc 52 2 1) 40 [1;2;0;0]%nat [6;0;0;0]%nat].
Definition full_from (nr : N) : list op := map (fun k => OpAdd (desc (49 + N.of_nat k) 1 2) (nr + N.of_nat k) [0;0;0;0]%nat [4;5;0;0]%nat) (seq 0 8).
Definition apartb (s1 s2 : node) : bool :=
  forallb (fun m1 => forallb (fun m2 => negb (in_use m1 && in_use m2) || negb (m_nr m1 =? m_nr m2)) (tab_of s2)) (tab_of s1).
Lemma beyond s p : (length (tab_of s) <= p)%nat -> in_use (modat s p) = false.
Proof. intro L. unfold modat. rewrite nth_overflow by exact L. reflexivity. Qed.
Lemma apartb_ok s1 s2 : apartb s1 s2 = true -> numbers_apart s1 s2.
Proof.
  intros H p q Up Uq K. unfold apartb in H. rewrite forallb_forall in H.
  assert (p < length (tab_of s1))%nat as Lp. { destruct (Nat.lt_ge_cases p (length (tab_of s1))) as [L|L]; auto. apply beyond in L. congruence. }
  assert (q < length (tab_of s2))%nat as Lq. { destruct (Nat.lt_ge_cases q (length (tab_of s2))) as [L|L]; auto. apply beyond in L. congruence. }
  specialize (H (modat s1 p) (nth_In _ _ Lp)). rewrite forallb_forall in H. specialize (H (modat s2 q) (nth_In _ _ Lq)). rewrite Up, Uq, K, N.eqb_refl in H. discriminate.
Qed.
Definition fullb (s : node) : bool := forallb in_use (tab_of s).
Lemma fullb_ok s : fullb s = true -> no_spare s.
Proof. intros H p L. unfold fullb in H. rewrite forallb_forall in H. apply H. apply nth_In. exact L. Qed.

Example C93_case :
  calmly E0 node_a (after node_a) /\ calmly E0 node_b (after node_b) /\ numbers_apart (after node_a) (after node_b) /\
  step E0 (request 0 5) (after node_a) = Ret (tt, after (node_a ++ [request 0 5])) /\ step E0 (request 0 5) (after node_b) = Ret (tt, after (node_b ++ [request 0 5])) /\
  map (fun f => fst (fst f)) (sent (delta node_a [request 0 5])) = [1060; 1061; 1100] /\ map (fun f => fst (fst f)) (sent (delta node_b [request 0 5])) = [1140; 1141; 1180].
Proof. split; [apply calmly_after; vm_compute; reflexivity|]. split; [apply calmly_after; vm_compute; reflexivity|]. split; [apply apartb_ok; vm_compute; reflexivity|]. ex. Qed.
Print Assumptions C93_case.
Example C93_full_case : let a := full_from 10 in let b := full_from 30 in
  calmly E0 a (after a) /\ calmly E0 b (after b) /\ numbers_apart (after a) (after b) /\ no_spare (after a) /\ no_spare (after b) /\
  step E0 (sysmsg 1 [1;0;0;0;0;0;0;0]) (after a) = Ret (tt, after (a ++ [sysmsg 1 [1;0;0;0;0;0;0;0]])) /\ length (sent (delta a [sysmsg 1 [1;0;0;0;0;0;0;0]])) = 8%nat.
Proof.
  cbn zeta. split; [apply calmly_after; vm_compute; reflexivity|]. split; [apply calmly_after; vm_compute; reflexivity|]. split; [apply apartb_ok; vm_compute; reflexivity|].
  split; [apply fullb_ok; vm_compute; reflexivity|]. split; [apply fullb_ok; vm_compute; reflexivity|]. ex.
Qed.

(** Refuted in general: entries that are not used have default numbers and answer. A request of the master to number 127 is answered
    by both nodes with the same identifier, though none of their modules has this number. *)
Theorem C93_spare_refuted : exists pre1 pre2 s1 s2 o s1' s2' new1 new2 f1 f2,
  calmly E0 pre1 s1 /\ calmly E0 pre2 s2 /\ numbers_apart s1 s2 /\
  (forall p, in_use (modat s1 p) = true -> m_nr (modat s1 p) <> 127) /\ (forall p, in_use (modat s2 p) = true -> m_nr (modat s2 p) <> 127) /\
  step E0 o s1 = Ret (tt, s1') /\ added s1 s1' new1 /\ In f1 (sent new1) /\
  step E0 o s2 = Ret (tt, s2') /\ added s2 s2' new2 /\ In f2 (sent new2) /\ fst (fst f1) = 507 /\ fst (fst f2) = 507.
Proof.
  set (o := sysmsg 127 [1;0;0;0;0;0;0;0]).
  exists node_a, node_b, (after node_a), (after node_b), o, (after (node_a ++ [o])), (after (node_b ++ [o])), (delta node_a [o]), (delta node_b [o]), (507, 8, [4;0;0;0;0;30;116;222]), (507, 8, [4;0;0;0;0;30;116;222]).
  assert (forall s k, forallb (fun m => negb (in_use m) || negb (m_nr m =? k)) (tab_of s) = true -> forall p, in_use (modat s p) = true -> m_nr (modat s p) <> k) as K.
  { intros s k H p U Q. assert (p < length (tab_of s))%nat as L. { destruct (Nat.lt_ge_cases p (length (tab_of s))) as [L|L]; auto. apply beyond in L. congruence. }
    rewrite forallb_forall in H. specialize (H (modat s p) (nth_In _ _ L)). rewrite U, Q, N.eqb_refl in H. discriminate. }
  split; [apply calmly_after; vm_compute; reflexivity|]. split; [apply calmly_after; vm_compute; reflexivity|]. split; [apply apartb_ok; vm_compute; reflexivity|].
  split; [apply K; vm_compute; reflexivity|]. split; [apply K; vm_compute; reflexivity|]. ex; vm_compute; tauto.
Qed.
Print Assumptions C93_spare_refuted.
