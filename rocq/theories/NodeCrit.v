(** Proofs about taking modules out of the process image. *)
From Verif Require Import Words WordsFacts Bits ErrModel NodeModel NodeLib NodeInv NodeSpec NodeHw NodeCnt NodeSync NodeImage NodeSilent NodePres NodeSysP NodeTx NodeSend NodeNum NodeRx NodeTxP NodeCritSpec.

Section Crit.
Variable E : env.
Hypothesis HE : env_ok E.

Lemma find_type_of s type : find_type (tab_of s) type 0 = of_type s type.
Proof.
  unfold of_type, modat. generalize (tab_of s). intro tab.
  assert (forall i, find_type tab type i = option_map (fun p => (i + p)%nat) (find (fun p => strn_eq 5 (m_type (nth p tab modl0)) type) (seq 0 (length tab)))) as K.
  { induction tab as [|m t IH]; intro i; cbn [find_type length seq find nth]; [reflexivity|].
    destruct (strn_eq 5 (m_type m) type); [cbn; f_equal; lia|]. rewrite IH, <- seq_shift.
    assert (forall l, find (fun p => strn_eq 5 (m_type (nth p (m :: t) modl0)) type) (map S l) =
      option_map S (find (fun p => strn_eq 5 (m_type (nth p t modl0)) type) l)) as F.
    { induction l as [|x l IHl]; cbn [map find nth]; [reflexivity|]. destruct (strn_eq 5 (m_type (nth x t modl0)) type); [reflexivity|exact IHl]. }
    rewrite F. destruct (find _ _); cbn; [f_equal; lia|reflexivity]. }
  rewrite K. destruct (find _ _); reflexivity.
Qed.
Lemma of_type_spec s type p : of_type s type = Some p -> (p < length (tab_of s))%nat /\ strn_eq 5 (m_type (modat s p)) type = true.
Proof. intro H. apply find_some in H. destruct H as [H1 H2]. apply in_seq in H1. split; [lia|exact H2]. Qed.

(** ** one switch *)
Definition flip (on : bool) (pos : nat) (s s' : node) : Prop :=
  (forall p, modat s' p = if (p =? pos)%nat then (if on then awakened else silenced) (modat s pos) else modat s p) /\
  n_tx s' = set_x_reg (n_tx s) (if on then N.lor (x_reg (n_tx s)) (objmask pos (m_ntx (modat s pos))) else N.ldiff (x_reg (n_tx s)) (objmask pos (m_ntx (modat s pos)))) /\
  (forall p, p <> pos -> awake s' p = awake s p).
Lemma step_part type on s s' : WF E s -> step E (OpTakePart type on) s = Ret (tt, s') ->
  match of_type s type with
  | None => s' = s
  | Some p => s' = (if on then upd_tx (fun x => set_x_reg x (N.lor (x_reg x) (objmask p (m_ntx (modat s p))))) (upd_mod p awakened s)
      else set_n_mem (upd_tx (fun x => set_x_reg x (N.ldiff (x_reg x) (objmask p (m_ntx (modat s p))))) (upd_mod p silenced s)) (zeroed (firstn (m_nrx (modat s p)) (m_rx (modat s p))) (n_mem s)))
  end.
Proof.
  intros W H. cbn [step] in H. unfold ignore, set_active_critical in H. mbind H as e s1 H1. apply ret_inv in H. destruct H as [_ ->].
  mbind H1 as tab s0 H0. apply gets_inv in H0. destruct H0 as [-> ->]. rewrite find_type_of in H1. destruct (of_type s type) as [p|] eqn:Et; [|apply ret_inv in H1; tauto].
  apply of_type_spec in Et. destruct Et as [Lp _]. mbind H1 as u s2 H2. apply ret_inv in H1. destruct H1 as [_ ->]. destruct u.
  destruct on; [apply sync_on_eq in H2|apply sync_off_eq in H2]; auto; apply (modat_ok E s p W).
Qed.
Lemma part_flip type on p s s' : WF E s -> of_type s type = Some p -> step E (OpTakePart type on) s = Ret (tt, s') -> flip on p s s' /\ (forall q, awake s' q = awake s q).
Proof.
  intros W Et H. apply step_part in H; auto. rewrite Et in H. apply of_type_spec in Et. destruct Et as [Lp _].
  assert (forall q, awake s' q = awake s q) as A by (intro; subst s'; destruct on; reflexivity). split; [|exact A]. split; [|split; [subst s'; destruct on; reflexivity|auto]].
  intro q. transitivity (modat (upd_mod p (if on then awakened else silenced) s) q); [subst s'; destruct on; reflexivity|]. apply modat_upd_mod. exact Lp.
Qed.
Lemma silent_flip (on : bool) p s e s' : WF E s -> (p < length (tab_of s))%nat -> set_silent_awake E p (if on then AWAKE else SILENT) s = Ret (e, s') -> flip on p s s' /\ awake s' p = on.
Proof.
  intros W Lp H. pose proof (sil_len E s W) as Ls. pose proof (tab_len E s W) as Lt. apply set_silent_awake_eq in H; [|exact W].
  assert ((p <? MAXM E)%nat = true) as Q by (apply Nat.ltb_lt; lia). rewrite Q in H. cbv zeta in H. set (a := marked s p (if on then AWAKE else SILENT)) in *.
  assert (n_cfg s' = n_cfg (upd_mod p (if on then awakened else silenced) a) /\
    n_tx s' = set_x_reg (n_tx s) (if on then N.lor (x_reg (n_tx s)) (objmask p (m_ntx (modat s p))) else N.ldiff (x_reg (n_tx s)) (objmask p (m_ntx (modat s p))))) as [Hc Hx].
  { destruct on; [change (AWAKE =? SILENT) with false in H; change (AWAKE =? AWAKE) with true in H|change (SILENT =? SILENT) with true in H]; cbv iota in H; destruct H as [_ H]; subst s'; split; reflexivity. }
  assert (forall q, awake s' q = if (q =? p)%nat then on else awake s q) as Haw.
  { intro q. unfold awake. replace (silat s' q) with (silat a q) by (unfold silat; rewrite Hc; reflexivity). unfold a. rewrite marked_silat by lia.
    destruct (q =? p)%nat; [destruct on; reflexivity|reflexivity]. }
  split; [|rewrite Haw, Nat.eqb_refl; reflexivity]. split; [|split; [exact Hx|]].
  - intro q. transitivity (modat (upd_mod p (if on then awakened else silenced) a) q); [unfold modat, tab_of; rewrite Hc; reflexivity|].
    rewrite modat_upd_mod by (change (tab_of a) with (tab_of s); exact Lp). reflexivity.
  - intros q Nq. rewrite Haw. apply Nat.eqb_neq in Nq. rewrite Nq. reflexivity.
Qed.

(** ** the invariant *)
Record TxJ (act : nat -> bool) (s : node) : Prop := {
  tj_g : TxG E s (ntx s) act;
  tj_unused : forall p, (p < MAXM E)%nat -> in_use (modat s p) = false -> ntx s p = 0%nat /\ act p = true /\ awake s p = true;
  tj_prefix : forall p q, (p < q)%nat -> (q < MAXM E)%nat -> in_use (modat s q) = true -> in_use (modat s p) = true;
  tj_nr : forall p, (p < MAXM E)%nat -> 2 <= m_nr (modat s p) <= 255
}.
Lemma TxJ_same act s s' : same_tx s s' -> TxJ act s -> TxJ act s'.
Proof.
  intros H [G U P Nr]. destruct (same_tx_info _ _ H) as (N1 & A1 & U1 & R1). split.
  - eapply TxG_ext; [| |eapply TxG_same; eauto]; auto.
  - intros p Hp Hu. rewrite N1, A1. rewrite U1 in Hu. auto.
  - intros p q Hpq Hq Hu. rewrite U1 in *. eauto.
  - intros p Lp. rewrite R1. auto.
Qed.
Definition swap (act : nat -> bool) (p : nat) (b : bool) : nat -> bool := fun q => if (q =? p)%nat then b else act q.
Lemma TxJ_flip act on pos s s' : WF E s -> (pos < MAXM E)%nat -> (in_use (modat s pos) = true \/ (on = true /\ awake s' pos = true)) -> TxJ act s -> flip on pos s s' -> TxJ (swap act pos on) s'.
Proof.
  intros W Hp Hu [G U P Nr] (Hm & Hx & Ha). pose proof (modat_ok E _ pos W) as (_ & Mt & _).
  assert (forall p, txinfo (modat s' p) = txinfo (modat s p)) as Hi.
  { intro p. rewrite Hm. destruct (Nat.eqb_spec p pos) as [->|]; [|reflexivity]. destruct on; [apply txinfo_awakened|apply txinfo_silenced]. }
  assert (forall n, N.testbit (x_reg (n_tx s')) (N.of_nat n) = if N.testbit (objmask pos (ntx s pos)) (N.of_nat n) then on else N.testbit (x_reg (n_tx s)) (N.of_nat n)) as Hg.
  { intro n. rewrite Hx. cbn [set_x_reg x_reg]. fold (ntx s pos). destruct on; [rewrite N.lor_spec|rewrite N.ldiff_spec]; destruct (N.testbit (objmask _ _) _); cbn [negb]; rewrite ?orb_true_r, ?orb_false_r, ?andb_false_r, ?andb_true_r; reflexivity. }
  assert (forall p, ntx s' p = ntx s p /\ in_use (modat s' p) = in_use (modat s p) /\ m_nr (modat s' p) = m_nr (modat s p)) as Hn.
  { intro p. pose proof (Hi p) as I. injection I as I1 I2 I3 I4. unfold ntx, in_use. rewrite I1, I2, I3. auto. }
  destruct G as [G1 G2 G3 G4]. split.
  - split.
    + intros p o Lp Lo. unfold cyclic. rewrite Hg, objmask_at; [|apply (pos32 E HE); auto|exact Mt|exact Lo].
      destruct (Hn p) as (-> & _). unfold swap. fold (cyclic s p o). rewrite G1 by auto. destruct (Nat.eqb_spec p pos) as [->|]; cbn [andb]; [|reflexivity].
      destruct (o <? ntx s pos)%nat; rewrite ?andb_true_r, ?andb_false_r; reflexivity.
    + intros n Ln. rewrite Hg, objmask_test by (apply (pos32 E HE); auto). rewrite G2 by exact Ln.
      destruct (Nat.ltb_spec n (NOBJ * pos + ntx s pos)); [|rewrite andb_false_r; reflexivity]. exfalso. unfold NOBJ, ntx in *. lia.
    + intros p o Lp Lo. destruct (Hn p) as (N1 & _ & N3). rewrite N1 in Lo. rewrite N3, (txinfo_dlc _ _ o (Hi p)), Hx. apply G3; auto.
    + intros p o Lp Lo. destruct (Hn p) as (N1 & _ & N3). rewrite N1 in Lo. rewrite Hx. apply G4; auto.
  - intros p Lp Lu. destruct (Hn p) as (N1 & N2 & _). rewrite N2 in Lu. rewrite N1. unfold swap. destruct (U p Lp Lu) as (U1 & U2 & U3). split; [exact U1|]. destruct (Nat.eqb_spec p pos) as [->|Np]; [|rewrite Ha; auto].
    destruct Hu as [Hu|Hu]; [congruence|exact Hu].
  - intros p q Hpq Hq. destruct (Hn p) as (_ & -> & _). destruct (Hn q) as (_ & -> & _). eauto.
  - intro p. destruct (Hn p) as (_ & _ & ->). auto.
Qed.
Lemma TxJ_ext act act' s : (forall p, act' p = act p) -> TxJ act s -> TxJ act' s.
Proof.
  intros H [G U P Nr]. split; auto.
  - revert G. apply TxG_ext; auto.
  - intros p Lp Lu. rewrite H. auto.
Qed.
Lemma TxJ_set_module act i d nr rxs txs s e s' : WF E s -> TxJ act s -> (i < MAXM E)%nat -> in_use (modat s i) = false -> (forall p, (p < i)%nat -> in_use (modat s p) = true) ->
  set_module E i d nr rxs txs s = Ret (e, s') -> TxJ act s'.
Proof.
  intros W [G U P Nr] Hi Hu Hb H. apply set_module_inv in H. destruct H as (Hd & s1 & H & Hs). apply desc_nonempty in Hd. destruct Hd as (D1 & D2 & D3 & D4 & D5).
  enough (TxJ act s1) as I1. { destruct Hs as [-> | ->]; [exact I1|]. revert I1. apply TxJ_same. repeat split. }
  clear Hs s'. set (m := new_entry d (limit_nr i nr) rxs txs) in *. set (sa := upd_mod i (fun _ => m) s) in *.
  assert (m_nr m = limit_nr i nr) as Hnr by reflexivity. assert (m_ntx m = m_ntx d) as Hnt by reflexivity. assert (in_use m = true) as Hm. { unfold in_use. apply negb_true_iff, N.eqb_neq. exact D1. }
  pose proof (tab_len E _ W) as Lt. destruct (U i Hi Hu) as (U1 & U2 & U3).
  assert (forall p, modat sa p = if (p =? i)%nat then m else modat s p) as Ma. { intro p. unfold sa. rewrite modat_upd_mod by lia. reflexivity. }
  assert (WF E sa) as Wa. { revert W. change (WFR E s sa). apply wf_upd_mod. intros _ _. unfold modok, m, new_entry. cbn. rewrite length_addrs_rx, length_addrs_tx. tauto. }
  assert (forall p, (p < MAXM E)%nat -> (0 < ntx s p)%nat -> p <> i -> (p < i)%nat) as Hc.
  { intros p Lp Np Ne. destruct (Nat.lt_ge_cases p i); auto. exfalso. destruct (in_use (modat s p)) eqn:Eu; [|apply U in Eu; auto; lia].
    rewrite (P i p) in Hu; auto; [discriminate|lia]. }
  assert (forall p, (ntx s p <= NOBJ)%nat) as H4 by (intro p; apply (modat_ok E s p W)).
  assert (TxG E sa (upd (ntx s) i 0%nat) act) as Ga.
  { apply (TxG_fields E s); [reflexivity| |].
    - intros p. unfold upd. rewrite Ma. destruct (Nat.eqb_spec p i); [lia|auto].
    - revert G. apply TxG_ext; auto. intros p Lp. unfold upd. destruct (Nat.eqb_spec p i) as [->|]; auto. }
  assert (forall sx, txi_ok sa sx -> TxG E sx (upd (ntx s) i (m_ntx d)) act -> TxJ act sx) as Fin.
  { intros sx (S1 & S2) Gx. assert (forall p, txinfo (modat sx p) = if (p =? i)%nat then txinfo m else txinfo (modat s p)) as Mx.
    { intro p. rewrite (same_tx_mod _ _ p S2), Ma. destruct (p =? i)%nat; reflexivity. }
    assert (forall p, ntx sx p = upd (ntx s) i (m_ntx d) p) as Nx. { intro p. unfold ntx, upd. specialize (Mx p). destruct (p =? i)%nat; injection Mx as _ _ Mx _; exact Mx. }
    assert (forall p, awake sx p = awake s p) as Ax. { intro p. unfold awake, silat. rewrite S1. reflexivity. }
    assert (forall p, in_use (modat sx p) = if (p =? i)%nat then true else in_use (modat s p)) as Ux.
    { intro p. specialize (Mx p). unfold in_use in *. destruct (p =? i)%nat; injection Mx as Mx _ _ _; rewrite Mx; auto. }
    split.
    - revert Gx. apply TxG_ext; auto.
    - intros p Lp. rewrite Ux, Nx, Ax. unfold upd. destruct (p =? i)%nat; [discriminate|auto].
    - intros p q Lpq Lq. rewrite !Ux. destruct (Nat.eqb_spec p i) as [->|Np]; auto. destruct (Nat.eqb_spec q i) as [->|Nq]; [intros _; apply Hb; exact Lpq|]. eauto.
    - intro p. specialize (Mx p). destruct (p =? i)%nat; injection Mx as _ Mx _ _; rewrite Mx; [intros _|auto].
      clear - Hi HE. destruct HE as ((_ & M8) & _). unfold limit_nr, NR_MAX, NR_MIN, NR_DEF. destruct (N.ltb_spec 124 nr), (N.ltb_spec nr 2); cbn [orb]; lia. }
  unfold set_module_rest, andthen in H. mbind H as e1 sb H1. assert (WF E sb) as Wb by (eapply wf_tx_loop; eauto). apply (cfg_loop E HE i (limit_nr i nr) (ntx s) act) in H1; auto; [|rewrite Ma, Nat.eqb_refl; exact Hnr].
  destruct H1 as (-> & Gb & Sb). change (0 + m_ntx d)%nat with (m_ntx d) in Gb. change (ERR_OK =? ERR_OK) with true in H. cbv iota in H.
  mbind H as e2 sc H2. assert (same_tx sb sc) as Sc. { revert H2. apply pres_for_err; [typeclasses eauto|]. intro; apply tx_rx_slot. }
  assert (WF E sc) as Wc. { revert Wb. change (WFR E sb sc). revert H2. apply pres_for_err; [typeclasses eauto|]. intro; apply wf_rx_slot. }
  pose proof (TxG_same E _ _ _ _ Sc Gb) as Gc. assert (txi_ok sa sc) as Tc. { destruct Sb, Sc as (_ & ? & ?). split; congruence. }
  destruct (e2 =? ERR_OK); [|apply ret_inv in H; destruct H as [_ ->]; auto].
  mbind H as tab sd Hd. apply gets_inv in Hd. destruct Hd as [-> ->]. mbind H as n sd Hd. apply gets_inv in Hd. destruct Hd as [-> ->].
  rewrite define_shared_eq in H. unfold andthen in H. mbind H as e3 sd Hd. assert (WF E sd) as Wd. { eapply wf_shared; [exact Hd|exact Wc]. }
  apply tx_shared in Hd. pose proof (TxG_same E _ _ _ _ Hd Gc) as Gd. assert (txi_ok sa sd) as Td. { destruct Tc, Hd as (_ & ? & ?). split; congruence. }
  destruct (e3 =? ERR_OK); [|apply ret_inv in H; destruct H as [_ ->]; auto]. mbind H as st se He. apply gets_inv in He. destruct He as [-> ->].
  assert (silat sd i = AWAKE) as Aw. { apply N.eqb_eq. change (awake sd i = true). rewrite <- U3. unfold awake, silat. rewrite (proj1 Td). reflexivity. }
  rewrite Aw in H. pose proof (Fin sd Td Gd) as Jd. apply (silent_flip true) in H; [|exact Wd|rewrite (tab_len E _ Wd); exact Hi]. destruct H as [H Ai].
  apply (TxJ_flip act true i) in H; auto. revert H. apply TxJ_ext. intro p. unfold swap. destruct (Nat.eqb_spec p i) as [->|]; auto.
Qed.
Lemma TxJ_add_module act d nr rxs txs : keeps E (TxJ act) (add_module E d nr rxs txs).
Proof.
  intros s e s' W I H. unfold add_module in H. mbind H as tab s0 H0. apply gets_inv in H0. destruct H0 as [-> ->].
  destruct (first_unused (tab_of s) 0) as [i|] eqn:Fu; [|apply ret_inv in H; destruct H as [_ ->]; exact I].
  apply first_unused_spec in Fu. rewrite Nat.sub_0_r in Fu. destruct Fu as (Li & Ui & Bi). pose proof (tab_len E _ W) as Lt.
  assert (forall nr e1 s1, set_module E i d nr rxs txs s = Ret (e1, s1) -> TxJ act s1) as Hs by (intros nr0 e1 s1 H1; eapply TxJ_set_module; eauto; lia).
  assert (forall e, pres same_tx (report_if e)) as Hr. { intro. apply pres_report_if; [typeclasses eauto|]. intros; tx_leaf. }
  destruct (existsb _ _); mbind H as e1 s1 H1; apply Hs in H1; mbind H as u s2 H2; apply ret_inv in H; destruct H as [_ ->]; eapply TxJ_same; eauto; eapply Hr; eauto.
Qed.

(** ** a module that does not take part is switched off as a whole *)
Definition ActI (act : nat -> bool) (s : node) : Prop := forall p, (p < MAXM E)%nat -> act p = false -> modat s p = silenced (modat s p).
Lemma ActI_flip act on pos s s' : ActI act s -> flip on pos s s' -> ActI (swap act pos on) s'.
Proof.
  intros A (Hm & _) p Lp. unfold swap. rewrite Hm. destruct (Nat.eqb_spec p pos) as [->|]; [|intro; apply A; auto]. intros ->. rewrite silenced_twice. reflexivity.
Qed.
Lemma ActI_same act s s' : tab_of s' = tab_of s -> ActI act s -> ActI act s'.
Proof. intros T A p Lp Hp. unfold modat in *. rewrite T. apply A; auto. Qed.
Record PI (act : nat -> bool) (s : node) : Prop := { pi_tx : TxJ act s; pi_act : ActI act s }.
Definition sametab (s s' : node) : Prop := n_tx s' = n_tx s /\ k_silent (n_cfg s') = k_silent (n_cfg s) /\ tab_of s' = tab_of s.
#[local] Instance pre_sametab : Pre sametab.
Proof. unfold sametab. split; [auto|]. intros a b c (?&?&?) (?&?&?). repeat split; congruence. Qed.
Lemma PI_same act s s' : sametab s s' -> PI act s -> PI act s'.
Proof.
  intros (A & B & C) [T I]. split; [|revert I; apply ActI_same; exact C]. revert T. apply TxJ_same. repeat split; auto. rewrite C. reflexivity.
Qed.
Lemma PI_keeps {A} act (m : M A) : pres sametab m -> keeps E (PI act) m.
Proof. intros P s a s' W K H. apply P in H. revert K. apply PI_same. exact H. Qed.
Lemma sametab_baud r : pres sametab (set_baudrate r).
Proof.
  unfold set_baudrate. refine (pres_bind _ _ _ _ _); [pres_tac|intro tab]. generalize ERR_OK.
  induction tab as [|x tab IH]; intro e; cbn [set_baudrate_loop]; [pres_tac|].
  destruct (r =? x); [|apply IH]. unfold hw_set_baudrate. repeat (simple apply IH || pres_tac1); repeat split; reflexivity.
Qed.
Lemma sametab_mode m : pres sametab (set_node_mode m).
Proof. unfold set_node_mode. pres_tac; repeat split; reflexivity. Qed.
Lemma PI_flip act on pos s s' : WF E s -> (pos < MAXM E)%nat -> in_use (modat s pos) = true -> PI act s -> flip on pos s s' -> PI (swap act pos on) s'.
Proof. intros W Hp Hu [T A] F. split; [eapply TxJ_flip; eauto|eapply ActI_flip; eauto]. Qed.
Lemma part_same act s o s' : sametab s s' -> PI act s -> switches E s o = None -> PI (part_after E s o act) s'.
Proof. intros H K Q. unfold part_after. rewrite Q. eapply PI_same; eauto. Qed.

Lemma PI_step pre o act s s' : fair E o -> reached E pre s -> PI act s -> step E o s = Ret (tt, s') -> PI (part_after E s o act) s'.
Proof.
  intros Po R K H. pose proof (WF_reached E _ _ R) as W. pose proof (tab_len E s W) as Lt.
  assert (switches E s o = None -> op_keeps E (PI act) o -> PI (part_after E s o act) s') as Go.
  { intros Q Q2. unfold part_after. rewrite Q. eapply (keeps_step E (PI act)); try exact H; auto; intros ? ? Hk; revert Hk; apply PI_same; repeat split; reflexivity. }
  destruct o; try (apply Go; [reflexivity|exact I]); cbn [fair plain] in Po.
  - destruct (sys_mo E mo) eqn:Hs.
    2:{ apply Go; [cbn [switches]; rewrite Hs; reflexivity|]. cbn [op_keeps]. unfold sys_mo in Hs. rewrite Hs. discriminate. }
    specialize (Po eq_refl). destruct Po as (P1 & P2 & P3).
    destruct (N.eqb_spec dlc 8) as [->|Nd].
    + destruct (silent_cmd (byte_at data 0)) as [st|] eqn:Sc.
      * assert (needs_serial (byte_at data 0) = true /\ byte_at data 1 <> 0 /\ (st = SILENT \/ st = AWAKE)) as (Ns & B1 & Hst).
        { unfold silent_cmd in Sc. destruct (N.eqb_spec (byte_at data 0) 33) as [Q|Q]; [injection Sc as <-; rewrite Q in *; auto|].
          destruct (N.eqb_spec (byte_at data 0) 34) as [Q2|Q2]; [injection Sc as <-; rewrite Q2 in *; auto|discriminate]. }
        destruct (N.eqb_spec (id_nr id) 1) as [Hb|Hb].
        -- destruct (broadcast_refused E _ _ _ _ _ _ _ R Hs Ns Hb H) as [Q _]. apply part_same; auto.
           ++ rewrite Q. repeat split; reflexivity.
           ++ cbn [switches]. rewrite Hs, Hb. reflexivity.
        -- pose proof (silent_message E _ _ _ _ _ _ _ _ R Hs Sc Hb H) as Q. unfold part_after. cbn [switches]. rewrite Hs, Sc. change (8 =? 8) with true.
           destruct (N.eqb_spec (id_nr id) 1) as [|_]; [congruence|]. cbn [andb negb]. destruct (entry_of_nr s (id_nr id)) as [p|] eqn:En; [|subst; exact K].
           destruct (has_serial E data && has_type s p data) eqn:Ht; [|subst; exact K]. apply andb_prop in Ht. destruct Ht as [_ Ht].
           destruct (entry_lt _ _ _ En) as [Lp _].
           assert (in_use (modat s p) = true) as Up.
           { unfold has_type in Ht. unfold in_use. apply negb_true_iff, N.eqb_neq. intro Z. apply B1. revert Ht Z. unfold byte_at.
             try (intro Ht; apply strn_hd in Ht; rewrite <- Ht); destruct data as [|x [|y data]]; auto. }
           assert (st = if st =? AWAKE then AWAKE else SILENT) as Q2 by (destruct Hst; subst st; reflexivity). rewrite Q2 in Q.
           apply silent_flip in Q; auto. apply (PI_flip act (st =? AWAKE) p s); auto; [lia|apply Q].
      * apply Go. { cbn [switches]. rewrite Sc. destruct (sys_mo E mo && (8 =? 8) && negb (id_nr id =? 1)); reflexivity. }
        cbn [op_keeps]. intros _. unfold sys_keeps. change (b data 0) with (byte_at data 0). unfold cmd_of. unfold silent_cmd in Sc.
        destruct (byte_at data 0 =? 33) eqn:X1; [discriminate|]. destruct (byte_at data 0 =? 34) eqn:X2; [discriminate|].
        repeat match goal with |- context [if byte_at data 0 =? ?k then _ else _] => destruct (N.eqb_spec (byte_at data 0) k); [cbv iota|] end; try exact I; try congruence.
        split; [intro|]; apply PI_keeps; [apply sametab_mode|apply sametab_baud].
    + apply part_same; auto.
      2:{ cbn [switches]. apply N.eqb_neq in Nd. rewrite Nd, andb_false_r. reflexivity. }
      cbn [step] in H. revert s s' H R K W Lt Go. intros s s' H _ _ _ _ _. revert H. enough (pres sametab (frame_rx E mo id dlc data now)) as P by (intro X; exact (P _ _ _ X)).
      unfold frame_rx. refine (pres_bind _ _ _ _ _); [pres_tac|intro sy]. refine (pres_bind _ _ _ _ _); [destruct sy; [|pres_tac]|intro].
      { apply (kpres_on_data E sametab); try typeclasses eauto; intros; repeat split; reflexivity. }
      refine (pres_bind _ _ _ _ _); [destruct (mo =? MO_PROCESS)%nat; [|pres_tac]|intro].
      { apply (kpres_on_process E sametab); try typeclasses eauto; intros; repeat split; reflexivity. }
      fold (sys_mo E mo). rewrite Hs. unfold on_sys, sys_msg_rx. apply N.eqb_neq in Nd. rewrite Nd. cbn [negb]. pres_tac; repeat split; reflexivity.
  - unfold part_after. cbn [switches]. cbn [step] in H. unfold ignore in H. mbind H as e s1 H1. apply ret_inv in H. destruct H as [_ ->].
    split; [eapply TxJ_add_module; eauto; apply K|]. apply add_module_inv in H1.
    destruct (first_unused (tab_of s) 0) as [i|] eqn:Fu; [|destruct H1 as [_ ->]; apply K]. apply first_unused_spec in Fu. rewrite Nat.sub_0_r in Fu. destruct Fu as (Li & Ui & _). fold (modat s i) in Ui.
    destruct H1 as (_ & _ & _ & Ho & _). intros q Hq Ha. rewrite Ho; [apply K; auto|]. intros ->. destruct (tj_unused _ _ (pi_tx _ _ K) i Hq Ui) as (_ & X & _). congruence.
  - apply step_silent in H. unfold part_after. cbn [switches]. destruct (named s type nr) as [p|] eqn:Nm; cbn [option_map]; [|subst; exact K]. destruct H as [e H]. destruct Po as [Ht Hst].
    apply named_spec in Nm. destruct Nm as (Lp & Tp & _). apply strn_hd in Tp.
    assert (in_use (modat s p) = true) as Up by (unfold in_use; apply negb_true_iff, N.eqb_neq; congruence).
    assert (state = if state =? AWAKE then AWAKE else SILENT) as Q2 by (destruct Hst; subst state; reflexivity). rewrite Q2 in H.
    apply silent_flip in H; auto. apply (PI_flip act (state =? AWAKE) p s); auto; [lia|apply H].
  - destruct Po.
  - apply Go; [reflexivity|]. apply PI_keeps. unfold change_type_add. pres_tac; repeat split; reflexivity.
  - apply Go; [reflexivity|]. intros sa. apply PI_same; repeat split; reflexivity.
  - apply Go; [reflexivity|]. intros sa. apply PI_same; repeat split; reflexivity.
  - apply Go; [reflexivity|]. apply PI_keeps, sametab_mode.
  - apply Go; [reflexivity|]. apply PI_keeps, sametab_baud.
  - unfold part_after. cbn [switches]. destruct (of_type s type) as [p|] eqn:Et; cbn [option_map].
    + pose proof (of_type_spec _ _ _ Et) as [Lp Tp]. apply strn_hd in Tp. destruct (part_flip _ _ _ _ _ W Et H) as [F _].
      apply (PI_flip act on p s); auto; [lia|]. unfold in_use. apply negb_true_iff, N.eqb_neq. congruence.
    + apply step_part in H; auto. rewrite Et in H. subst. exact K.
Qed.

(** ** the start and whole histories *)
Lemma PI_booted s : booted E s -> PI (fun _ => true) s.
Proof.
  intro B. pose proof (TxI_booted E s B) as [G U P Nr]. split; [|intros p _ Q; discriminate].
  assert (forall p, (p < MAXM E)%nat -> in_use (modat s p) = false) as Un.
  { destruct B as (mem & st & orc & rate & H). unfold can_init in H. apply andthen_inv in H. destruct H as (s1 & H1 & H).
    assert (same_f ident s1 s) as Sf.
    { revert H. assert (forall m, pres (same_f ident) m -> forall (e:N) s1 s, m s1 = Ret (e, s) -> same_f ident s1 s) as K by (intros; eauto).
      apply K. unfold define_obj, hw_define, msg_objs_init, sys_init, sync_init. pres_tac; same_leaf. }
    intros p Lp. apply (same_f_at ident _ _ p) in Sf. injection Sf as Sf _. unfold in_use. rewrite Sf. unfold config_init in H1. minv_all.
    unfold modat, tab_of. cbn. rewrite map_map. rewrite nth_map_seq by exact Lp. reflexivity. }
  split; auto.
  - revert G. apply TxG_ext; auto. intros p Lp. symmetry. apply U; auto.
  - intros p Lp Hu. destruct (U p Lp Hu). auto.
Qed.
Lemma history_reached ops s act : history E ops s act -> reached E ops s.
Proof.
  induction 1 as [s B|ops s act o s' _ IH H]; [exists s; split; [exact B|reflexivity]|]. eapply reached_app; eauto.
Qed.
Lemma history_PI ops s act : Forall (fair E) ops -> history E ops s act -> PI act s.
Proof.
  intros F H. induction H as [s B|ops s act o s' H0 IH H]; [apply PI_booted, B|]. apply Forall_app in F. destruct F as [F1 F2]. inversion F2; subst.
  eapply PI_step; eauto. eapply history_reached; eauto.
Qed.
Lemma ident_part t on : pres (same_f ident) (step E (OpTakePart t on)).
Proof.
  cbn [step]. unfold ignore, set_active_critical, sync_off, sync_on, tx_data_on, tx_data_off.
  repeat ((simple apply pres_call_rx; [typeclasses eauto| intros; same_leaf]) || pres_tac1); same_leaf.
Qed.
Lemma history_NrI ops s act : Forall (fair E) ops -> history E ops s act -> NrI E s.
Proof.
  intros F H. induction H as [s B|ops s act o s' H0 IH H].
  - apply (NrI_reached E [] s); [constructor|]. exists s. split; [exact B|reflexivity].
  - apply Forall_app in F. destruct F as [F1 F2]. inversion F2 as [|? ? Fo _]; subst. pose proof (WF_reached E _ _ (history_reached _ _ _ H0)) as W.
    assert (plain E o \/ exists t on, o = OpTakePart t on) as [Po|(t & on & ->)] by (destruct o; cbn [fair] in Fo; eauto).
    + eapply NrI_step; eauto.
    + eapply NrI_same; [|exact (IH F1)]. eapply ident_part; eauto.
Qed.

(** ** the frames of a cycle *)
Definition tune (act : nat -> bool) (s : node) : node := upd_cfg (fun k => set_k_silent k (map (fun p => if act p then AWAKE else SILENT) (seq 0 (MAXM E)))) s.
Lemma awake_tune act s p : (p < MAXM E)%nat -> awake (tune act s) p = act p.
Proof. intro H. unfold awake, silat, tune. cbn. rewrite nth_map_seq by exact H. destruct (act p); reflexivity. Qed.
Lemma WF_tune act s : WF E s -> WF E (tune act s).
Proof. intros ((A & B & C & D) & R). split; [|exact R]. split; [exact A|]. split; [exact B|]. split; [|exact D]. cbn. rewrite map_length, seq_length. reflexivity. Qed.
Lemma TxI_tune act s : TxJ act s -> TxI E (tune act s).
Proof.
  intros [G U P Nr]. split; auto.
  - apply (TxG_ext E _ (ntx s) act); [reflexivity|intros p Lp; apply awake_tune, Lp|]. revert G. apply TxG_fields; reflexivity.
  - intros p Lp Hu. rewrite awake_tune by exact Lp. destruct (U p Lp Hu) as (U1 & U2 & _). split; auto.
Qed.
Lemma objects_tune act s : WF E s -> enabled (tune act s) = objects act s.
Proof.
  intro W. unfold enabled, objects. change (tab_of (tune act s)) with (tab_of s). rewrite (tab_len E s W). apply flat_map_ext_in'. intros p Hp. apply in_seq in Hp.
  rewrite awake_tune by lia. reflexivity.
Qed.
Lemma send_all_J act s : WF E s -> TxJ act s -> send_process_data E s = send_all E (map enc (objects act s)) (JUNK E) s.
Proof.
  intros W I. pose proof (WF_tune act s W) as Wt. pose proof (TxI_tune act s I) as It. rewrite <- (objects_tune act s W), <- (setbits_enabled E _ Wt It).
  unfold send_process_data, bind. cbn [gets]. change (n_tx (tune act s)) with (n_tx s). set (reg := x_reg (n_tx s)). set (xe := x_end (n_tx s)).
  change (reg) with (N.shiftr reg (N.of_nat 0)) at 1. assert (length (setbits reg 0 (S xe)) < SEND_FUEL)%nat as L.
  { change (length (setbits (x_reg (n_tx (tune act s))) 0 (S (x_end (n_tx (tune act s))))) < SEND_FUEL)%nat. rewrite (setbits_enabled E _ Wt It), map_length. pose proof (enabled_short E HE _ Wt). unfold SEND_FUEL. lia. }
  revert L. generalize SEND_FUEL. intros fuel L. rewrite (send_loop_all E reg xe); auto; [|lia].
  intros n Hn. apply (bit_beyond E (tune act s)); auto.
Qed.
Lemma frames_J act s u s' : WF E s -> TxJ act s -> send_process_data E s = Ret (u, s') ->
  exists new, added s s' new /\ sent new = cyc_frames s (objects act s) (JUNK E).
Proof.
  intros W I. rewrite (send_all_J act s W I). apply send_all_frames; auto.
  pose proof (enabled_ok E _ (WF_tune act s W) (TxI_tune act s I)) as Q. rewrite (objects_tune act s W) in Q. exact Q.
Qed.
Lemma objects_cfg act s s' : n_cfg s' = n_cfg s -> objects act s' = objects act s.
Proof. intro C. unfold objects, modat, tab_of. rewrite C. reflexivity. Qed.
Lemma TxJ_numbers act s : WF E s -> TxJ act s -> numbers_ok s.
Proof. intros W I i Hi. rewrite (tab_len E s W) in Hi. pose proof (tj_nr _ _ I i Hi). lia. Qed.
Lemma request_frames_J act pre id dlc data now s s' : TxJ act s -> reached E pre s -> step E (OpFrame MO_PROCESS id dlc data now) s = Ret (tt, s') ->
  exists new st, added s s' new /\ reports (m_nr (modat s 0)) (n_err s) st /\
    sent new = cyc_frames s (objects act s) (JUNK E) ++ match pending_errors st with [] => [] | e :: _ => error_tx s e end.
Proof.
  intros I R H. pose proof (WF_reached E _ _ R) as W.
  assert (0 < length (tab_of s))%nat as Hl by (rewrite (tab_len E s W); apply HE). pose proof (TxJ_numbers act s W I) as Hn.
  eapply step_request in H; [|reflexivity|eapply HwI_reached, R]. unfold on_process in H.
  mbind H as u1 s1 H1. pose proof (mem_request _ _ _ H1) as M1. assert (WF E s1) as W1 by (eapply wf_request; eauto). apply mute_request in H1.
  mbind H as u2 s2 H2. pose proof (mem_check _ _ _ _ H2) as M2. assert (WF E s2) as W2 by (eapply wf_check_image; eauto). apply mute_check in H2.
  destruct H1 as (C1 & T1 & E1 & n1 & L1 & S1). destruct H2 as (C2 & T2 & E2 & n2 & L2 & S2).
  assert (TxJ act s2) as I2. { apply (TxJ_same act s); auto. repeat split; [congruence| |]; unfold tab_of; congruence. }
  mbind H as u3 s3 H3. destruct (frames_J _ _ _ _ W2 I2 H3) as (n3 & L3 & S3).
  rewrite (objects_cfg act s s2) in S3 by congruence. rewrite (cyc_frames_cfg s s2) in S3 by (unfold keep_mem in *; congruence).
  apply send_process_cyc in H3. destruct H3 as (O3 & R3 & _). 
  mbind H as u4 s4 H4. apply mute_main in H4. destruct H4 as (C4 & T4 & E4 & n4 & L4 & S4). mbind H as c s0 H0. apply gets_inv in H0. destruct H0 as [-> ->].
  assert (n_cfg s4 = n_cfg s) as C by (destruct O3 as (O3 & _); congruence).
  assert (modat s2 0 = modat s 0) as M by (unfold modat, tab_of; congruence). rewrite M, E2, E1 in R3.
  assert (n_log s4 = n_log s ++ (n1 ++ n2 ++ n3 ++ n4)) as L by (rewrite L4, L3, L2, L1, <- !app_assoc; reflexivity).
  assert (sent (n1 ++ n2 ++ n3 ++ n4) = cyc_frames s (objects act s) (JUNK E)) as S by (rewrite !sent_app, S1, S2, S3, S4, app_nil_r; reflexivity).
  unfold err_count in H. rewrite E4 in H. destruct (Nat.eqb_spec (es_count (n_err s3)) 0) as [Z|Z].
  - rewrite Z in H. change (0 <? 0)%nat with false in H. cbv iota in H. apply ret_inv in H. destruct H as [_ ->].
    exists (n1 ++ n2 ++ n3 ++ n4), (n_err s3). unfold pending_errors. rewrite Z, app_nil_r. auto.
  - assert ((0 <? es_count (n_err s3))%nat = true) as Z1 by (apply Nat.ltb_lt; clear -Z; lia). rewrite Z1 in H. apply send_one_error_inv in H.
    + destruct H as (O5 & st & e & r & G & Er & n5 & L5 & S5). rewrite E4 in G. destruct (es_get_head _ _ _ _ Z G) as (-> & x & -> & l & P).
      exists ((n1 ++ n2 ++ n3 ++ n4) ++ n5), (n_err s3). unfold added. rewrite L5, L, P, sent_app, S. split; [rewrite <- !app_assoc; reflexivity|]. split; [exact R3|].
      f_equal. rewrite S5. change (ERR_OK =? ERR_OK) with true. cbv iota. cbn [flat_map]. rewrite app_nil_r. apply error_tx_cfg, C.
    + unfold tab_of. rewrite C. exact Hl.
    + intros i Hi. unfold modat, tab_of in *. rewrite C in *. apply Hn, Hi.
Qed.

#[local] Existing Instances pre_quiet pre_spoke.
Definition lawful_by (act : nat -> bool) (s : node) (f : N * N * list byte) : Prop :=
  (exists p o, In (p, o) (objects act s) /\ fst (fst f) = data_tx_id (m_nr (modat s p)) o) \/
  (exists nr, speaks s nr = true /\ fst (fst f) = can_ident BASE_SYS_TX nr 0).
Lemma quiet_lawful_by act s s' new : added s s' new -> quiet s s' -> forall f, In f (sent new) -> lawful_by act s f.
Proof. intros A (n & L & S) f Hf. unfold added in A. rewrite A in L. apply app_inv_head in L. subst n. rewrite S in Hf. destruct Hf. Qed.
Lemma sent_step_J act pre o s s' new : TxJ act s -> reached E pre s -> step E o s = Ret (tt, s') -> added s s' new ->
  forall f, In f (sent new) -> lawful_by act s f.
Proof.
  intros I R H A. destruct o; try (apply (quiet_lawful_by act _ _ _ A); revert H; cbn [step]; unfold ignore, set_silent_awake_type_nr, change_type_add, set_image_cb, report, trigger_period, get_period, set_cycle_time;
    match goal with |- ?m s = _ -> _ => enough (pres quiet m) as P by (intro H; exact (P _ _ _ H)) end;
    repeat (simple apply quiet_mode || simple apply quiet_baud || simple apply quiet_nr_ids || simple apply quiet_silent || simple apply quiet_part || pres_tac1); quiet_leaf; fail).
  - destruct (sys_mo E mo) eqn:Hm.
    + apply step_sys in H; auto; [|eapply HwI_reached; eauto]. rewrite on_sys_eq in H. mbind H as e s1 H1.
      assert (quiet s s1 \/ spoke s s1) as Q.
      { unfold sys_msg_rx in H1. destruct (negb (dlc =? 8)); [apply ret_inv in H1; destruct H1 as [_ ->]; left; apply pre_refl|].
        destruct (id_nr id =? NR_BROADCAST).
        - mbind H1 as n s0 H0. apply gets_inv in H0. destruct H0 as [-> ->]. destruct (nmod s =? 0)%nat; [apply ret_inv in H1; destruct H1 as [_ ->]; left; apply pre_refl|].
          destruct (either_sys_cmd E true 0 (id_nr id) data) as [P|P]; apply P in H1; auto.
        - mbind H1 as n s0 H0. apply gets_inv in H0. destruct H0 as [-> ->]. destruct (find_nr (tab_of s) (id_nr id) 0) as [pos|]; [|apply ret_inv in H1; destruct H1 as [_ ->]; left; apply pre_refl].
          destruct (either_sys_cmd E false pos (id_nr id) data) as [P|P]; apply P in H1; auto. }
      apply quiet_report in H. destruct Q as [Q|Q].
      * apply (quiet_lawful_by act _ _ _ A). eapply pre_trans; eauto.
      * destruct Q as (C & n1 & L1 & S1). destruct H as (n2 & L2 & S2). unfold added in A. rewrite A, L1, <- app_assoc in L2. apply app_inv_head in L2. subst new.
        intros f Hf. rewrite sent_app, S2, app_nil_r in Hf. apply S1 in Hf. right. exact Hf.
    + destruct (Nat.eq_dec mo MO_PROCESS) as [->|Np].
      * destruct (request_frames_J _ _ _ _ _ _ _ _ I R H) as (n & st & A' & _ & S). unfold added in *. rewrite A in A'. apply app_inv_head in A'. subst n.
        intros f Hf. rewrite S in Hf. apply in_app_or in Hf. destruct Hf as [Hf|Hf]; [left; eapply cyc_frames_in; eauto|].
        destruct (pending_errors st) as [|e l]; [destruct Hf|]. unfold error_tx in Hf. destruct (speaks s (error_nr s e)) eqn:Sp; [|destruct Hf]. destruct Hf as [<-|[]].
        right. exists (error_nr s e). split; [exact Sp|]. cbn [fst].
        assert (1 <= error_nr s e <= 255).
        { unfold error_nr. destruct ((2 <=? e_module e) && (e_module e <=? 124)) eqn:Q.
          - apply andb_prop in Q. destruct Q as [Q1 Q2]. apply N.leb_le in Q1, Q2. lia.
          - destruct HE as ((M1 & _) & _). pose proof (tj_nr _ _ I 0%nat ltac:(lia)). lia. }
        symmetry. apply can_ident_sys; lia.
      * apply (quiet_lawful_by act _ _ _ A). cbn [step] in H. unfold frame_rx in H. apply Nat.eqb_neq in Np. rewrite Np in H. fold (sys_mo E mo) in H. rewrite Hm in H.
        revert H. match goal with |- ?m s = _ -> _ => enough (pres quiet m) as P by (intro H; exact (P _ _ _ H)) end.
        repeat (simple apply quiet_on_data || pres_tac1).
  - apply (quiet_lawful_by act _ _ _ A). cbn [step] in H. revert H. match goal with |- ?m s = _ -> _ => enough (pres quiet m) as P by (intro H; exact (P _ _ _ H)) end.
    unfold ignore, add_module. repeat (simple apply quiet_set_module || simple apply quiet_report || pres_tac1).
  - apply (quiet_lawful_by act _ _ _ A). cbn [step] in H. unfold report in H. destruct (syserr_send (n_err s) err prio nr) as [[st r]|]; [|discriminate]. injection H as <-. quiet_leaf.
Qed.
Lemma objects_in act s p o : In (p, o) (objects act s) <-> (p < length (tab_of s))%nat /\ act p = true /\ (o < m_ntx (modat s p))%nat.
Proof.
  unfold objects. rewrite in_flat_map. split.
  - intros (q & Hq & H). apply in_seq in Hq. destruct (act q) eqn:Aw; [|destruct H].
    apply in_map_iff in H. destruct H as (x & Hx & Hi). injection Hx as -> ->. apply in_seq in Hi. repeat split; auto; lia.
  - intros (H1 & H2 & H3). exists p. split; [apply in_seq; lia|]. rewrite H2. apply in_map_iff. exists o. split; [reflexivity|]. apply in_seq. lia.
Qed.
(** no data frame of a module that takes no part is sent *)
Lemma out_quiet act pre o s s' new p : TxJ act s -> NrI E s -> reached E pre s -> step E o s = Ret (tt, s') -> added s s' new ->
  (p < length (tab_of s))%nat -> act p = false ->
  forall f obj, In f (sent new) -> (obj < 4)%nat -> fst (fst f) <> data_tx_id (m_nr (modat s p)) obj.
Proof.
  intros I J R H A Lp Sp f obj Hf Ho. pose proof (WF_reached E _ _ R) as W.
  rewrite (tab_len E s W) in Lp. pose proof (tj_nr _ _ I p Lp) as Np.
  assert (in_use (modat s p) = true) as Up. { destruct (in_use (modat s p)) eqn:U; auto. apply (tj_unused _ _ I) in U; auto. destruct U as (_ & U & _). congruence. }
  destruct (sent_step_J act _ _ _ _ _ I R H A f Hf) as [(q & o' & Hi & ->)|(nr & Hs & ->)].
  - apply objects_in in Hi. destruct Hi as (Lq & Aq & Oq). rewrite (tab_len E s W) in Lq. pose proof (tj_nr _ _ I q Lq) as Nq.
    pose proof (modat_ok E s q W) as (_ & M4 & _). unfold NOBJ in M4.
    assert (in_use (modat s q) = true) as Uq. { destruct (in_use (modat s q)) eqn:U; auto. apply (tj_unused _ _ I) in U; auto. destruct U as [U _]. unfold ntx in U. lia. }
    unfold data_tx_id. intros Q. assert (m_nr (modat s q) = m_nr (modat s p)) as Q' by lia.
    assert (q = p); [|congruence]. destruct (Nat.lt_total q p) as [L|[L|L]]; auto; exfalso; [eapply (nr_diff E s J q p)|eapply (nr_diff E s J p q)]; eauto.
  - unfold speaks in Hs. destruct (entry_of_nr s nr) as [q|] eqn:En; [|discriminate]. pose proof (entry_first s nr q En) as (Lq & Qn & Hfirst).
    rewrite (tab_len E s W) in Lq. pose proof (tj_nr _ _ I q Lq) as Nq. rewrite Qn in Nq. rewrite can_ident_sys by lia. unfold data_tx_id, sys_tx_id. lia.
Qed.
(** no data frame reaches the memory of a module that takes no part *)
Lemma out_no_delivery act pre s mo id dlc data now s' p : ActI act s -> reached E pre s -> owner s mo = Some p -> act p = false -> (N.to_nat (id mod 4) < m_nrx (modat s p))%nat ->
  step E (OpFrame mo id dlc data now) s = Ret (tt, s') -> n_mem s' = n_mem s.
Proof.
  intros S R O Aw Hx H. pose proof (WF_reached E _ _ R) as W.
  destruct (is_sync_mo mo s) eqn:Sy.
  - destruct (step_data E _ _ _ _ _ _ _ _ (HwI_reached E _ _ R) O Sy H) as [e H1]. apply rx_data_main_inv in H1. cbn zeta in H1.
    destruct (accepts E s p id dlc); [|destruct H1 as [-> _]; reflexivity]. destruct H1 as (g & app & Eg & Ea & _ & ->).
    assert (p < MAXM E)%nat as Lp. { destruct (Nat.lt_ge_cases p (MAXM E)) as [|L]; auto. rewrite <- (tab_len E s W) in L. unfold modat in Hx. rewrite nth_overflow in Hx by exact L. cbn in Hx. lia. }
    pose proof (modat_ok E s p W) as (M1 & _ & _ & _ & M5 & _).
    assert (r_conv_s (rxat (modat s p) (N.to_nat (id mod 4))) = Some rx_dummy) as Q.
    { rewrite (S p Lp Aw). unfold rxat, silenced. cbn [m_rx]. rewrite mapfirst_nth by lia. destruct (Nat.ltb_spec (N.to_nat (id mod 4)) (m_nrx (modat s p))); [reflexivity|lia]. }
    rewrite Q in Eg. injection Eg as <-. cbn [upd_sync set_n_sync set_n_mem n_mem rx_dummy fst]. apply set_nth_id. exact Ea.
  - pose proof (HwI_reached E _ _ R) as (_ & HI & _). destruct (HI mo (owner_in _ _ _ O)) as [_ Nr]. cbn [step] in H. unfold frame_rx in H.
    mbind H as sy s0 H0. apply gets_inv in H0. destruct H0 as [-> ->]. rewrite Sy in H. mbind H as u s1 H1. apply ret_inv in H1. destruct H1 as [_ ->].
    assert ((mo =? MO_PROCESS)%nat = false /\ (mo =? MO_SYS1)%nat || SYS2 E && (mo =? MO_SYS2)%nat = false) as [X1 X2].
    { split; [apply Nat.eqb_neq; intros ->; apply Nr; left; auto|]. apply orb_false_intro; [apply Nat.eqb_neq; intros ->; apply Nr; right; left; auto|].
      destruct (SYS2 E) eqn:S2; auto. cbn. apply Nat.eqb_neq. intros ->. apply Nr. unfold reserved. rewrite S2. cbn. auto. }
    rewrite X1, X2 in H. mbind H as u2 s2 H2. apply ret_inv in H2. destruct H2 as [_ ->]. apply ret_inv in H. destruct H as [_ ->]. reflexivity.
Qed.
(** the effect of one declaration *)
Lemma turned_step pre type on p s s' : reached E pre s -> of_type s type = Some p -> step E (OpTakePart type on) s = Ret (tt, s') -> turned on p s s'.
Proof.
  intros R Et H. pose proof (WF_reached E _ _ R) as W. pose proof (part_flip _ _ _ _ _ W Et H) as [(Hm & Hx & _) Ha]. apply step_part in H; auto. rewrite Et in H.
  apply of_type_spec in Et. destruct Et as [Lp _]. pose proof (tab_len E s W) as Lt. pose proof (modat_ok E s p W) as (_ & Mt & _).
  split; auto.
  - rewrite Hm, Nat.eqb_refl. destruct on; reflexivity.
  - intros q Nq. rewrite Hm. apply Nat.eqb_neq in Nq. rewrite Nq. reflexivity.
  - intros q o Ho. unfold cyclic at 1. rewrite Hx. cbn [set_x_reg x_reg].
    destruct on; [rewrite N.lor_spec|rewrite N.ldiff_spec]; rewrite objmask_at by (first [exact Ho | exact Mt | apply (pos32 E HE); [lia|exact Mt]]); unfold cyclic;
      destruct ((q =? p)%nat && (o <? m_ntx (modat s p))%nat); cbn [negb]; rewrite ?orb_true_r, ?orb_false_r, ?andb_false_r, ?andb_true_r; reflexivity.
  - subst s'. destruct on; reflexivity.
  - subst s'. destruct on; repeat split; cbn; apply set_nth_length.
Qed.

(** its image counts as valid in every evaluation *)
Lemma out_valid act pre d t s s' new p v : ActI act s -> reached E pre s -> act p = false -> step E (request d t) s = Ret (tt, s') -> added s s' new ->
  In (p, v) (verdicts new) -> v = true.
Proof.
  intros A R Hp H Ad Hin. pose proof (WF_reached E _ _ R) as W. destruct (request_events E _ _ _ _ _ (HwI_reached E _ _ R) (CycI_reached E _ _ R) H Ad) as [Q _]. rewrite Q in Hin.
  destruct (_ && _); [|destruct Hin]. apply in_map_iff in Hin. destruct Hin as (q & Hq & _). injection Hq as -> <-. destruct (Nat.lt_ge_cases p (MAXM E)) as [L|L].
  - unfold module_valid. rewrite (A p L Hp). reflexivity.
  - unfold module_valid, modat. rewrite nth_overflow by (rewrite (tab_len E s W); exact L). reflexivity.
Qed.
End Crit.
