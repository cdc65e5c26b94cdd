(** Low histories keep all numbers up to 128 (C107). *)
From Verif Require Import Words WordsFacts Bits ErrModel NodeModel NodeLib NodeInv NodeSpec NodeHw NodeCnt NodeSync NodeRx NodeSilent NodePres NodeSysP NodeTx NodeNum NodeTxP NodeNr NodeMo NodeCfg NodeBusSpec NodeCalmSpec NodeCalm NodeUkwn EchoSpec Echo.

Section EchoNr.
Variable E : env.
Hypothesis HE : env_ok E.
Definition NI (s : node) : Prop := forall p, m_nr (modat s p) <= 128.
Definition NIR (s s' : node) : Prop := NI s -> NI s'.
#[local] Instance pre_NIR : Pre NIR := pre_imp NI.
Lemma NIR_same s s' : same_f m_nr s s' -> NIR s s'.
Proof. intros H F p. rewrite (same_f_at m_nr _ _ p H). apply F. Qed.
Lemma NIR_of {A} (m : M A) : pres (same_f m_nr) m -> pres NIR m.
Proof. apply pres_weaken. intros s s'. apply NIR_same. Qed.
(** the number of a new module *)
Lemma low_final s i d nr rxs txs : low E s (OpAdd d nr rxs txs) -> next_pos s = Some i -> final_nr s i nr <= 128.
Proof.
  intros Lo Np. cbn [low] in Lo. specialize (Lo i Np). pose proof (next_pos_spec _ _ Np) as (Li & _ & Bi). unfold final_nr. destruct (existsb _ _) eqn:Ex.
  - destruct Lo as [L|[_ L]]; [unfold NR_DEF; lia|]. exfalso. apply existsb_exists in Ex. destruct Ex as (m & Hm & Q). apply N.eqb_eq in Q. destruct (In_nth _ _ modl0 Hm) as (p & Lp & Qp). rewrite firstn_length in Lp.
    assert (modat s p = m) as Qm by (unfold modat; rewrite <- Qp; rewrite <- (firstn_skipn i (tab_of s)) at 1; rewrite app_nth1 by (rewrite firstn_length; lia); reflexivity).
    apply (L p); [lia|apply Bi; lia|congruence].
  - unfold limit_nr, NR_MAX, NR_MIN, NR_DEF. destruct (N.ltb_spec 124 nr), (N.ltb_spec nr 2); cbn [orb]; destruct Lo as [L|[L _]]; lia.
Qed.
Lemma NIR_nr_ids t new a : new <= 128 -> pres NIR (change_nr_ids E t new a).
Proof.
  intros Hn s e s' H F. destruct (named s t a) as [p|] eqn:Nm.
  - intro q. rewrite (nr_ids_numbers E _ _ _ _ _ _ _ Nm H). destruct (q =? p)%nat; [exact Hn|apply F].
  - unfold change_nr_ids in H. mbind H as tab s0 H0. apply gets_inv in H0. destruct H0 as [-> ->]. rewrite find_type_nr_named, Nm in H. discriminate H.
Qed.
Lemma NIR_silent p st : pres NIR (set_silent_awake E p st).
Proof. apply NIR_of; apply same_silent; exact nr_base. Qed.
Lemma NIR_nr p n : n <= 128 -> pres NIR (change_nr E p n).
Proof. intro Hn. unfold change_nr. repeat ((simple apply NIR_nr_ids; exact Hn) || simple apply NIR_silent || pres_tac1). Qed.
Lemma NI_step o s s' : low E s o -> step E o s = Ret (tt, s') -> NIR s s'.
Proof.
  intros Lo H. assert ((exists d nr rxs txs, o = OpAdd d nr rxs txs) \/ (forall d nr rxs txs, o <> OpAdd d nr rxs txs)) as [(d & nr & rxs & txs & ->)|Na] by (destruct o; eauto 6; right; intros; discriminate).
  { intros F. cbn [step] in H. unfold ignore in H. mbind H as e s1 H1. apply ret_inv in H. destruct H as [_ ->]. apply add_module_inv in H1. rewrite first_unused_next in H1.
    destruct (next_pos s) as [i|] eqn:Np; [|destruct H1 as [_ ->]; exact F]. destruct H1 as (_ & _ & B & O & _). intro p. destruct (Nat.eq_dec p i) as [->|Np']; [|rewrite O by exact Np'; apply F].
    change (m_nr (base (modat s1 i)) <= 128). rewrite B. apply (low_final s i d nr rxs txs Lo Np). }
  refine ((_ : pres NIR (step E o)) s tt s' H). clear H. apply (kernel_step E); try typeclasses eauto; try (intros; apply NIR_same; reflexivity).
  destruct o; cbn [kernel low] in *; auto; try (intro; apply NIR_same; reflexivity).
  - intro Hs. specialize (Lo Hs). unfold sys_kernel. destruct (cmd_of (b data 0)) eqn:Qc; auto; try (intro; apply NIR_of; apply same_sys_silent; exact nr_base).
    + split; [intro m0; apply (NIR_of _ (same_mode m_nr m0))|apply (NIR_of _ (same_baud m_nr _))].
    + intro. apply NIR_nr. apply Lo. apply cmd_number, Qc.
    + intro. apply NIR_of, nr_type.
  - exfalso. eapply Na. reflexivity.
  - unfold set_silent_awake_type_nr. repeat (simple apply NIR_silent || pres_tac1).
  - apply NIR_nr_ids. apply Lo.
  - unfold change_type_add. pres_tac; apply NIR_same; reflexivity.
  - apply NIR_of; apply same_mode.
  - apply NIR_of; apply same_baud.
  - apply NIR_of. unfold set_active_critical, sync_off, sync_on, tx_data_on, tx_data_off. repeat ((simple apply pres_call_rx; [typeclasses eauto| intros; same_leaf]) || pres_tac1); same_leaf.
Qed.
Lemma NI_lowly ops s : lowly E ops s -> NI s.
Proof.
  intros (s0 & B & R). assert (NI s0) as I0.
  { apply booted_base in B. destruct B as [B _]. intro p. destruct (Nat.lt_ge_cases p (MAXM E)) as [L|L].
    - change (m_nr (base (modat s0 p)) <= 128). rewrite (base_nth E _ _ B L). cbn. unfold def_nr. lia.
    - unfold modat. rewrite nth_overflow; [cbn; lia|]. apply (f_equal (@length modl)) in B. rewrite !map_length, seq_length in B. lia. }
  clear B. revert s0 I0 R. induction ops as [|o ops IH]; intros s0 I0 R; cbn [run_with] in R; [subst; exact I0|]. destruct R as (Lo & s1 & H1 & R). eapply IH; [|exact R]. eapply NI_step; eauto.
Qed.
(** nodes with at most four modules *)
Lemma calm_low ops s : (MAXM E <= 4)%nat -> calmly E ops s -> lowly E ops s.
Proof.
  intros L4 (s0 & B & R). exists s0. split; [exact B|]. assert (length (tab_of s0) = MAXM E) as Ln.
  { apply booted_base in B. destruct B as [B _]. apply (f_equal (@length modl)) in B. rewrite !map_length, seq_length in B. exact B. }
  assert (WF E s0) as W by (apply (WF_reached E [] s0); exists s0; split; [exact B|reflexivity]). clear B Ln. revert s0 W R. induction ops as [|o ops IH]; intros s0 W R; cbn [run_with] in *; [exact R|]. destruct R as (C & s1 & H1 & R). split.
  - destruct o; cbn [low calm] in *; auto.
    + intros Hs Q. destruct (C Hs) as (C1 & _). destruct (C1 Q) as [[C2 _] _]. lia.
    + intros i Np. left. pose proof (next_pos_spec _ _ Np) as (Li & _). destruct W as ((W1 & _) & _). unfold tab_of in Li. lia.
    + destruct C as [[C _] _]. lia.
  - exists s1. split; [exact H1|]. apply IH; [eapply wf_step; eauto|exact R].
Qed.
End EchoNr.
