(** Lemmas for C96. *)
From Verif Require Import Words WordsFacts Bits ErrModel NodeModel NodeLib NodeInv NodeSpec NodeHw NodeCnt NodeSync NodeRx NodeSilent NodePres NodeSysP NodeTx NodeSend NodeNum NodeTxP NodeNr NodeImage NodeMo NodeCfg NodeUkwnModel NodeUkwnSpec.

Section Ukwn.
Variable E : env.
Hypothesis HE : env_ok E.

Definition eqn (s s' : node) : Prop := nmod s' = nmod s.
#[local] Instance pre_eqn : Pre eqn.
Proof. split; unfold eqn; congruence. Qed.
Lemma eqn_types s s' : same_types s s' -> eqn s s'.
Proof. intros [_ H]. exact H. Qed.
Lemma eqn_of A (m : M A) : pres same_types m -> pres eqn m.
Proof. apply pres_weaken. exact eqn_types. Qed.
Lemma eqn_silent data nr st : pres eqn (sys_silent_awake E data nr st).
Proof. unfold sys_silent_awake. repeat ((simple apply eqn_of; simple apply types_set_silent_awake) || pres_tac1); reflexivity. Qed.
Lemma eqn_plain o : plain E o -> (forall d nr rxs txs, o <> OpAdd d nr rxs txs) -> pres eqn (step E o).
Proof.
  intros Po Ho. apply (kernel_step E); try typeclasses eauto; try (intros; reflexivity).
  destruct o; cbn [kernel plain] in *; auto; try (intro; reflexivity).
  - intro Hs. apply Po in Hs. destruct Hs as (H1 & H2 & _). unfold sys_kernel. change (b data 0) with (byte_at data 0). unfold cmd_of.
    repeat match goal with |- context [if byte_at data 0 =? ?k then _ else _] => destruct (N.eqb_spec (byte_at data 0) k); [cbv iota|] end; try exact I; try congruence.
    + split; [intro; apply eqn_of, types_set_node_mode|apply eqn_of, types_set_baudrate].
    + intro. apply eqn_silent.
    + intro. apply eqn_silent.
  - exfalso. eapply Ho; reflexivity.
  - unfold set_silent_awake_type_nr. repeat ((simple apply eqn_of; simple apply types_set_silent_awake) || pres_tac1).
  - destruct Po.
  - unfold change_type_add. pres_tac; reflexivity.
  - apply eqn_of, types_set_node_mode.
  - apply eqn_of, types_set_baudrate.
  - destruct Po.
Qed.

Lemma kept_run ops : forall s s', Forall (plain E) ops -> no_adds ops -> run E ops s = Ret (tt, s') -> same_f base s s' /\ nmod s' = nmod s.
Proof.
  induction ops as [|o ops IH]; intros s s' F A R; cbn [run] in R.
  - apply ret_inv in R. destruct R as [_ ->]. split; reflexivity.
  - mbind R as u s1 H1. destruct u. inversion F as [|? ? F1 F2]; subst. unfold no_adds in A. change (o :: ops) with ([o] ++ ops) in A. rewrite adds_app in A. apply app_eq_nil in A. destruct A as [A1 A2].
    assert (forall d nr rxs txs, o <> OpAdd d nr rxs txs) as No by (intros ? ? ? ? ->; discriminate A1).
    pose proof (plain_base E o F1 No _ _ _ H1) as P1. pose proof (eqn_plain o F1 No _ _ _ H1) as P2.
    destruct (IH s1 s' F2 A2 R) as [Q1 Q2]. unfold same_f, eqn in *. split; congruence.
Qed.
Lemma booted_base s : booted E s -> map base (tab_of s) = map base (map (fun i => slot0 (def_nr i)) (seq 0 (MAXM E))) /\ nmod s = 0%nat.
Proof.
  intros (mem & st & orc & rate & H). unfold can_init in H. apply andthen_inv in H. destruct H as (s1 & H1 & H).
  assert (same_f base s1 s /\ nmod s = nmod s1) as [Sf Sn].
  { split.
    - revert H. assert (forall m, pres (same_f base) m -> forall (e:N) s1 s, m s1 = Ret (e, s) -> same_f base s1 s) as K by (intros; eauto).
      apply K. unfold define_obj, hw_define, msg_objs_init, sys_init, sync_init. pres_tac; same_leaf.
    - revert H. assert (forall m, pres eqn m -> forall (e:N) s1 s, m s1 = Ret (e, s) -> nmod s = nmod s1) as K by (intros m Pm e a c X; exact (Pm _ _ _ X)).
      apply K. unfold define_obj, hw_define, msg_objs_init, sys_init, sync_init. pres_tac; reflexivity. }
  unfold same_f in Sf. rewrite Sf, Sn. unfold config_init in H1. minv_all. split; [|reflexivity].
  unfold tab_of. cbn. rewrite !map_map. reflexivity.
Qed.
Lemma base_nth s p : map base (tab_of s) = map base (map (fun i => slot0 (def_nr i)) (seq 0 (MAXM E))) -> (p < MAXM E)%nat -> base (modat s p) = base (slot0 (def_nr p)).
Proof.
  intros H L. apply (f_equal (fun l => nth p l (base modl0))) in H. rewrite map_nth in H. unfold modat. rewrite H. rewrite map_map.
  rewrite nth_map_seq by exact L. reflexivity.
Qed.
Lemma fresh pre s : Forall (plain E) pre -> no_adds pre -> reached E pre s ->
  nmod s = 0%nat /\ (forall p, (p < MAXM E)%nat -> base (modat s p) = base (slot0 (def_nr p))).
Proof.
  intros F A (s0 & B & R). destruct (kept_run _ _ _ F A R) as [K1 K2]. apply booted_base in B. destruct B as [B1 B2]. split; [congruence|].
  intros p L. apply base_nth; [|exact L]. unfold same_f in K1. congruence.
Qed.

Lemma for0 i f : for_err 0 i f = ret ERR_OK.
Proof. reflexivity. Qed.
Lemma set_module_bump i type nr nr0 s e s' : set_module E i (ukwn_desc type nr) nr0 [] [] s = Ret (e, s') -> nmod s' = S (nmod s).
Proof.
  unfold set_module. intro H. mbind H as u0 s0 H0. apply guard_inv in H0. destruct H0 as [Hd ->]. 
  mbind H as u1 s1 H1. apply modify_inv in H1. cbn [ukwn_desc m_ntx m_nrx] in *. unfold andthen in H.
  mbind H as e1 s2 H2. rewrite for0 in H2. apply ret_inv in H2. destruct H2 as [-> ->]. change (ERR_OK =? ERR_OK) with true in H. cbv iota in H.
  mbind H as e1 s2 H2. rewrite for0 in H2. apply ret_inv in H2. destruct H2 as [-> ->]. change (ERR_OK =? ERR_OK) with true in H. cbv iota in H.
  mbind H as tab s3 H3. apply gets_inv in H3. destruct H3 as [-> ->].
  mbind H as n s3 H3. apply gets_inv in H3. destruct H3 as [-> ->].
  mbind H as e3 s3 H3. mbind H as u s4 H4. apply modify_inv in H4. apply ret_inv in H. destruct H as [-> ->]. subst.
  apply types_define_shared in H3. destruct H3 as [_ H3]. unfold nmod in *. cbn in *. rewrite H3. reflexivity.
Qed.
Lemma report_nmod e s s' : report_if e s = Ret (tt, s') -> nmod s' = nmod s.
Proof. intro H. apply report_cfg in H. destruct H as (H & _). unfold nmod. rewrite H. reflexivity. Qed.
Lemma add_bump type nr nr0 s e s' : next_pos s <> None -> add_module E (ukwn_desc type nr) nr0 [] [] s = Ret (e, s') -> nmod s' = S (nmod s).
Proof.
  intros Np H. unfold add_module in H. mbind H as tab s0 H0. apply gets_inv in H0. destruct H0 as [-> ->]. rewrite first_unused_next in H.
  destruct (next_pos s) as [i|]; [|congruence].
  destruct (existsb _ _); mbind H as e1 s1 H1; apply set_module_bump in H1; mbind H as u s2 H2; destruct u; apply report_nmod in H2; apply ret_inv in H; destruct H as [_ ->]; congruence.
Qed.

Definition ukwn_op (nr : N) : op := OpAdd (ukwn_desc UKWN nr) nr [] [].
Lemma start_step s s' : nmod s = 0%nat -> nr_main s = 125 -> start_ukwn E s = Ret (tt, s') -> step E (ukwn_op 125) s = Ret (tt, s').
Proof.
  intros N0 N1 H. unfold start_ukwn in H. mbind H as n s0 H0. apply gets_inv in H0. destruct H0 as [-> ->]. rewrite N0 in H. change (0 =? 0)%nat with true in H. cbv iota in H.
  mbind H as nr s0 H0. apply gets_inv in H0. destruct H0 as [-> ->]. rewrite N1 in H. exact H.
Qed.
Lemma start_eq s : nmod s = 0%nat -> nr_main s = 125 -> start_ukwn E s = step E (ukwn_op 125) s.
Proof.
  intros N0 N1. transitivity ((if (nmod s =? 0)%nat then ignore (add_ukwn E UKWN (nr_main s)) else ret tt) s).
  - unfold start_ukwn, bind, gets. destruct (nmod s =? 0)%nat; reflexivity.
  - rewrite N0, N1. reflexivity.
Qed.
Lemma start_fresh pre s s' : Forall (plain E) pre -> no_adds pre -> reached E pre s -> start_ukwn E s = Ret (tt, s') ->
  step E (ukwn_op 125) s = Ret (tt, s') /\ next_pos s = Some 0%nat.
Proof.
  intros F A R H. destruct (fresh pre s F A R) as [N0 B]. assert (0 < MAXM E)%nat as L0 by (destruct HE; lia). split.
  - apply start_step; auto. unfold nr_main. specialize (B 0%nat L0). apply (f_equal m_nr) in B. exact B.
  - pose proof (AddI_next E (adds pre) s (WF_reached E _ _ R) (AddI_reached E pre s F R)) as Q. unfold no_adds in A. rewrite A in Q. cbn [length] in Q. destruct (Nat.ltb_spec 0 (MAXM E)); [exact Q|lia].
Qed.
Lemma start_unknown pre s s' : Forall (plain E) pre -> no_adds pre -> reached E pre s -> start_ukwn E s = Ret (tt, s') ->
  unknown_node E s' /\ numbers_ok s' /\ reached E (pre ++ [ukwn_op 125]) s'.
Proof.
  intros F A R H. destruct (fresh pre s F A R) as [N0 B]. destruct (start_fresh pre s s' F A R H) as [S Np].
  pose proof (reached_step _ _ _ _ _ R S) as R'. assert (0 < MAXM E)%nat as L0 by (destruct HE; lia).
  cbn [step] in S. unfold ignore, ukwn_op in S. cbn [step] in S. mbind S as e s0 S0. apply ret_inv in S. destruct S as [_ ->].
  assert (next_pos s <> None) as Nz by congruence. pose proof (add_bump _ _ _ _ _ _ Nz S0) as Nb. apply add_module_inv in S0. rewrite first_unused_next, Np in S0. destruct S0 as (_ & _ & Hb & Ho & Hl & _).
  assert (final_nr s 0 125 = 125) as Fn by reflexivity. rewrite Fn in Hb.
  split; [|split; [|exact R']].
  - split.
    + rewrite Nb, N0. reflexivity.
    + apply (f_equal m_type) in Hb. exact Hb.
    + apply (f_equal m_nr) in Hb. exact Hb.
    + apply (f_equal m_nrx) in Hb. exact Hb.
    + apply (f_equal m_ntx) in Hb. exact Hb.
    + intros p Lp. rewrite Ho by lia. specialize (B p ltac:(lia)). split; [|split].
      * rewrite (in_use_base _ _ B). reflexivity.
      * apply (f_equal m_nrx) in B. exact B.
      * apply (f_equal m_ntx) in B. exact B.
  - intros p Lp. rewrite Hl, (tab_len E s (WF_reached E _ _ R)) in Lp. destruct p as [|p].
    + apply (f_equal m_nr) in Hb. cbn in Hb. rewrite Hb. lia.
    + rewrite Ho by lia. specialize (B (S p) Lp). apply (f_equal m_nr) in B. cbn in B. rewrite B. unfold def_nr, NR_DEF. lia.
Qed.
Lemma unknown_kept ops s s' : Forall (plain E) ops -> no_adds ops -> run E ops s = Ret (tt, s') -> unknown_node E s /\ numbers_ok s -> unknown_node E s' /\ numbers_ok s'.
Proof.
  intros F A R [U N]. destruct (kept_run _ _ _ F A R) as [K1 K2]. pose proof (fun p => same_f_at base _ _ p K1) as K. destruct U as [U1 U2 U3 U4 U5 U6]. split; [split|].
  - congruence.
  - refine (eq_trans (f_equal m_type (K 0%nat)) _). exact U2.
  - refine (eq_trans (f_equal m_nr (K 0%nat)) _). exact U3.
  - refine (eq_trans (f_equal m_nrx (K 0%nat)) _). exact U4.
  - refine (eq_trans (f_equal m_ntx (K 0%nat)) _). exact U5.
  - intros p Lp. specialize (U6 p Lp). specialize (K p). rewrite (in_use_base _ _ K). apply (f_equal m_nrx) in K as Ka. apply (f_equal m_ntx) in K as Kb. cbn in Ka, Kb. rewrite Ka, Kb. exact U6.
  - intros p Lp. unfold same_f in K1. apply (f_equal (@length _)) in K1. rewrite !map_length in K1. rewrite K1 in Lp. specialize (N p Lp). specialize (K p). apply (f_equal m_nr) in K. cbn in K. rewrite K. exact N.
Qed.
Lemma unknown_enabled s : unknown_node E s -> length (tab_of s) = MAXM E -> enabled s = [].
Proof.
  intros U L. unfold enabled. rewrite L. assert (forall l, (forall p, In p l -> (p < MAXM E)%nat) -> flat_map (fun p => if awake s p then map (fun o => (p, o)) (seq 0 (m_ntx (modat s p))) else []) l = []) as K.
  { induction l as [|p l IH]; intro H; [reflexivity|]. cbn [flat_map]. rewrite IH by (intros; apply H; right; assumption). rewrite app_nil_r.
    assert (m_ntx (modat s p) = 0%nat) as ->. { destruct p as [|p]; [apply (un_tx _ _ U)|]. apply (un_rest _ _ U). specialize (H (S p) (or_introl eq_refl)). lia. }
    destruct (awake s p); reflexivity. }
  apply K. intros p Hp. apply in_seq in Hp. lia.
Qed.
Lemma hears_start pre s s' : Forall (plain E) pre -> no_adds pre -> reached E pre s -> start_ukwn E s = Ret (tt, s') ->
  reported s s' \/ n_err s' = n_err s /\ hears E s' 1 /\ hears E s' 125.
Proof.
  intros F A R H. destruct (start_unknown pre s s' F A R H) as (U & _ & _). destruct (start_fresh pre s s' F A R H) as [S Np].
  destruct (hears_added E HE _ _ _ _ pre s s' 0 R S Np) as [Q|[Q1 Q2]]; [left; exact Q|right]. split; [exact Q1|]. split.
  - apply Q2; [lia|left; reflexivity].
  - apply Q2; [lia|right]. exists 0%nat. split; [lia|apply (un_nr _ _ U)].
Qed.
End Ukwn.
