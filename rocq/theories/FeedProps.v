(** C109: what the master sends decides about the process images. *)
From Verif Require Import Words ErrModel NodeModel NodeLib NodeSpec NodeInv NodeHw NodeImage NodeSysP NodeTx NodeNum NodeEx NodeMo NodeCfg NodeContSpec NodeCont NodeContProps NodeSyncProps NodeBusSpec NodeBusProps EchoSpec Echo AimSpec Aim AimProps FeedSpec Feed.

(** Between two process requests the master sends process data: every node finds the image of a module valid iff each of the objects the module
    listens to was sent exactly once with its length - whatever was sent to other modules, in whatever order. *)
Theorem C109_valid : forall E pre d1 t1 fs d2 t2 s0 s1 s2 s3 new,
  env_ok E -> plainly E pre s0 -> all_complete E s0 -> existsb is_request pre = true -> d1 <= 1 ->
  step E (request d1 t1) s0 = Ret (tt, s1) -> Forall proper fs -> N.of_nat (length fs) <= 65536 -> meets_all E fs s1 s2 ->
  step E (request d2 t2) s2 = Ret (tt, s3) -> added s2 s3 new ->
  map fst (verdicts new) = seq 0 (nmod s0) /\
  forall p v, In (p, v) (verdicts new) -> in_use (modat s0 p) = true -> m_nr (modat s0 p) <= 128 ->
    (v = true <-> forall obj, (obj < listening s0 p)%nat -> times (CHK E) fs (m_nr (modat s0 p)) obj (r_dlc_s (rxat (modat s0 p) obj)) = 1%nat).
Proof.
  intros E pre d1 t1 fs d2 t2 s0 s1 s2 s3 new HE P C X D1 S1 Fp Lf M S2 A.
  assert (sys_mo E MO_PROCESS = false) as Hs by (unfold sys_mo; destruct (SYS2 E); reflexivity).
  assert (plain E (request d1 t1)) as Pl by (apply frame_plain, Hs). assert (n_cfg s1 = n_cfg s0) as Q1 by (exact (frame_cfg E MO_PROCESS ID_PROCESS d1 [] t1 Hs _ _ _ S1)).
  destruct P as [F R]. assert (plainly E (pre ++ [request d1 t1]) s1) as P1 by (split; [apply Forall_app; split; [exact F|constructor; [exact Pl|constructor]]|eapply reached_step; eauto]).
  assert (forall p, modat s1 p = modat s0 p) as Qm by (intro; unfold modat, tab_of; rewrite Q1; reflexivity).
  assert (all_complete E s1) as C1 by (intros p U; rewrite Qm in U; eapply (complete_kept E HE); eauto).
  destruct (all_meets E HE fs _ _ _ P1 C1 Fp M) as (mid & Rm & P2 & Q2 & Nr & Lm & _ & K).
  destruct (image_verdict_short E pre d1 t1 mid d2 t2 s0 s1 s2 s3 new R X D1 S1 Nr Rm S2 A ltac:(lia)) as [V W]. assert (nmod s2 = nmod s0) as Qn by (unfold nmod; rewrite Q2, Q1; reflexivity).
  split; [rewrite <- Qn; exact V|]. intros p v Hv U N8. assert (listening s2 p = listening s0 p) as Ql by (unfold listening, modat, tab_of; rewrite Q2, Q1; reflexivity). specialize (W p v Hv ltac:(lia)). rewrite Ql in W. rewrite W.
  pose proof (LI_plainly E pre s0 (conj F R) p) as Li. assert (forall obj, (obj < listening s0 p)%nat -> receptions E s1 mid p obj = times (CHK E) fs (m_nr (modat s0 p)) obj (r_dlc_s (rxat (modat s0 p) obj))) as Kp.
  { intros obj Lo. specialize (K p obj). rewrite Qm in K. apply K; auto. unfold listening in Lo. lia. }
  split; intros H obj Lo; specialize (H obj Lo); rewrite Kp in *; auto.
Qed.
Print Assumptions C109_valid.
(** And the objects of a module with a valid image hold what the master sent. *)
Theorem C109_data : forall E pre d1 t1 fs d2 t2 s0 s1 s2 s3 new p obj a,
  env_ok E -> SYS2 E = true -> plainly E pre s0 -> all_complete E s0 -> existsb is_request pre = true -> d1 <= 1 ->
  step E (request d1 t1) s0 = Ret (tt, s1) -> Forall proper fs -> N.of_nat (length fs) <= 65536 -> meets_all E fs s1 s2 ->
  step E (request d2 t2) s2 = Ret (tt, s3) -> added s2 s3 new ->
  In (p, true) (verdicts new) -> (obj < listening s0 p)%nat -> own_memory s1 p obj a ->
  exists f g app, In f fs /\ f_nr f = m_nr (modat s0 p) /\ f_obj f = obj /\ (CHK E = true -> f_dlc f = r_dlc_s (rxat (modat s0 p) obj)) /\
    r_conv_s (rxat (modat s0 p) obj) = Some g /\ nth_error (n_mem s1) a = Some app /\ nth_error (n_mem s3) a = Some (fst (g (f_data f) app (f_dlc f))).
Proof.
  intros E pre d1 t1 fs d2 t2 s0 s1 s2 s3 new p obj a HE Y2 P C X D1 S1 Fp Lf M S2 A Hv Lo Om.
  assert (sys_mo E MO_PROCESS = false) as Hs by (unfold sys_mo; destruct (SYS2 E); reflexivity).
  assert (plain E (request d1 t1)) as Pl by (apply frame_plain, Hs). assert (n_cfg s1 = n_cfg s0) as Q1 by (exact (frame_cfg E MO_PROCESS ID_PROCESS d1 [] t1 Hs _ _ _ S1)).
  destruct P as [F R]. assert (plainly E (pre ++ [request d1 t1]) s1) as P1 by (split; [apply Forall_app; split; [exact F|constructor; [exact Pl|constructor]]|eapply reached_step; eauto]).
  assert (forall p, modat s1 p = modat s0 p) as Qm by (intro; unfold modat, tab_of; rewrite Q1; reflexivity).
  assert (all_complete E s1) as C1 by (intros q U; rewrite Qm in U; eapply (complete_kept E HE); eauto).
  destruct (all_meets E HE fs _ _ _ P1 C1 Fp M) as (mid & Rm & P2 & Q2 & Nr & Lm & Om2 & _).
  assert (existsb reconfigures mid = false) as Rc.
  { destruct (existsb reconfigures mid) eqn:Q; [|reflexivity]. apply existsb_exists in Q. destruct Q as (o & Ho & Q). destruct (Om2 o Ho) as (f & mo & q & _ & -> & Hm & _). cbn [reconfigures] in Q. unfold sys_mo in Hm. rewrite Y2 in Hm. cbn [andb] in Hm. rewrite Hm in Q. discriminate. }
  assert (not_written a mid) as Nw by (intros d Hd; destruct (Om2 _ Hd) as (f & mo & q & _ & Q & _); discriminate).
  assert (listening s2 p = listening s0 p) as Ql by (unfold listening, modat, tab_of; rewrite Q2, Q1; reflexivity).
  destruct (C92_content_partial E pre d1 t1 mid d2 t2 s0 s1 s2 s3 new p obj a R X D1 S1 Nr Rm S2 A ltac:(lia) Rc Nw Om Hv ltac:(lia))
    as (Mm & _ & before & mo & id & dlc & data & now & rest & sa & g & app & Qmid & Ra & Ac & G & Ma & Mb).
  destruct (Om2 (OpFrame mo id dlc data now)) as (f & mo' & q & Hf & Q & _ & Aq & Mq); [rewrite Qmid; apply in_or_app; right; left; reflexivity|]. injection Q as <- -> -> -> ->.
  rewrite Forall_forall in Fp. destruct (Fp f Hf) as [Pn Po].
  assert (n_cfg sa = n_cfg s1 /\ all_complete E sa /\ exists ops, reached E ops sa) as (Qs & Ca & ops & Rr).
  { assert (forall o, In o before -> exists mo0 id0 dlc0 data0 now0, o = OpFrame mo0 id0 dlc0 data0 now0 /\ sys_mo E mo0 = false) as Hb.
    { intros o Ho. destruct (Om2 o) as (g0 & mo0 & q0 & _ & -> & H0 & _); [rewrite Qmid; apply in_or_app; left; exact Ho|]. eauto 8. }
    assert (exists ops, reached E ops s1) as Rs by (destruct P1; eauto). revert Ra Hb C1 Rs. clear - HE. revert s1. induction before as [|o t IH]; intros s1 Ra Hb C1 [ops Rs]; cbn [run] in Ra; [apply ret_inv in Ra; destruct Ra as [_ ->]; eauto|]. mbind Ra as u s2 H2. destruct u.
    destruct (Hb o (or_introl eq_refl)) as (mo0 & id0 & dlc0 & data0 & now0 & -> & H0). pose proof (frame_cfg E _ _ _ _ _ H0 _ _ _ H2) as Cf. unfold same_cfg in Cf. rewrite <- Cf. apply IH; [exact Ra|intros o Ho; apply Hb; right; exact Ho| |].
    - intros p U. pose proof (frame_plain E mo0 id0 dlc0 data0 now0 H0) as Pl. eapply (complete_kept E HE); eauto; [|apply C1]; unfold modat, tab_of in *; rewrite Cf in U; exact U.
    - exists (ops ++ [OpFrame mo0 id0 dlc0 data0 now0]). eapply reached_step; eauto. }
  assert (forall k, modat sa k = modat s0 k) as Qa by (intro k; unfold modat, tab_of; rewrite Qs, Q1; reflexivity).
  assert (modat s2 p = modat s0 p) as Q2p by (unfold modat, tab_of; rewrite Q2, Q1; reflexivity).
  destruct Aq as (_ & Uq & Nq & Oq). assert (rx_mo sa q (f_obj f) = rx_mo s1 q (f_obj f)) as Qx by (unfold rx_mo; rewrite Qa, Qm; reflexivity). rewrite Qm in Uq, Nq, Oq.
  pose proof (dispatched E _ sa q (f_obj f) (r_dlc_s (rxat (modat sa q) (f_obj f))) (f_data f) (f_now f) Rr (Ca q ltac:(rewrite Qa; exact Uq)) ltac:(rewrite Qa; exact Oq) ltac:(rewrite Qa; lia) ltac:(rewrite Qa; lia) eq_refl) as D.
  rewrite Qx, Mq in D. unfold accepted in D, Ac. apply andb_prop in D. destruct D as [D _]. apply andb_prop in D. destruct D as [D _]. apply andb_prop in D. destruct D as [_ D].
  apply andb_prop in Ac. destruct Ac as [Ac A3]. apply andb_prop in Ac. destruct Ac as [Ac A2]. apply andb_prop in Ac. destruct Ac as [_ A1]. destruct (owner sa mo) as [q'|]; [|discriminate]. apply Nat.eqb_eq in D, A1. assert (q = p) as -> by congruence.
  destruct (rx_nr_id (f_nr f) (f_obj f) ltac:(lia) ltac:(lia) Po) as [N1 N2]. rewrite N2 in A2. apply Nat.eqb_eq in A2. rewrite Qa in A3. rewrite Q2p in G. exists f, g, app. rewrite Mm.
  split; [exact Hf|]. split; [congruence|]. split; [exact A2|]. split; [|auto]. intro Ck. rewrite Ck in A3. apply andb_prop in A3. destruct A3 as [_ A3]. apply N.eqb_eq in A3. exact A3.
Qed.
Print Assumptions C109_data.

(** two modules; the master sends 10/0 once, 20/0 twice - once of them short -, 20/1 once and data for the module 30 of another node *)
Definition fd (nr : N) (obj : nat) (dlc : N) (x : byte) : feed := Feed nr obj dlc (repeat x 8) 20.
Definition c109_fs : list feed := [fd 10 0 8 7; fd 30 1 8 1; fd 20 1 8 5; fd 20 0 7 3; fd 20 0 8 6].
Definition fop (mo : nat) (f : feed) : op := OpFrame mo (data_rx_id (f_nr f) (f_obj f)) (f_dlc f) (f_data f) (f_now f).
Definition passb (s : node) (mo : nat) (id : N) : bool :=
  match nth mo (h_filt (n_hw s)) None with Some (f, m) => N.land (N.lxor id f) m =? 0 | None => false end.
Lemma passb_ok s mo id : passb s mo id = true <-> passes s mo id.
Proof. unfold passb, passes. destruct (nth mo (h_filt (n_hw s)) None) as [[f m]|]; [apply N.eqb_eq|split; [discriminate|tauto]]. Qed.
Lemma meets_take pre mo f : passb (after pre) mo (data_rx_id (f_nr f) (f_obj f)) = true -> fine (pre ++ [fop mo f]) = true ->
  meets E0 (after pre) (data_rx_id (f_nr f) (f_obj f)) (f_dlc f) (f_data f) (f_now f) (after (pre ++ [fop mo f])).
Proof. intros P F. left. exists mo. split; [apply passb_ok, P|]. apply after_step, F. Qed.
Lemma meets_none s id dlc data now : forallb (fun mo => negb (passb s mo id)) (seq 0 (length (h_filt (n_hw s)))) = true -> meets E0 s id dlc data now s.
Proof.
  intro H. right. split; [|reflexivity]. intros mo P. destruct (Nat.lt_ge_cases mo (length (h_filt (n_hw s)))) as [L|L].
  - rewrite forallb_forall in H. specialize (H mo ltac:(apply in_seq; lia)). apply passb_ok in P. rewrite P in H. discriminate.
  - unfold passes in P. rewrite nth_overflow in P by exact L. exact P.
Qed.
Definition listb (s : node) (mo : nat) (id : N) : bool := match nth mo (h_filt (n_hw s)) None with Some (f, m) => (f =? id) && (m =? 2047) | None => false end.
Definition compb (s : node) (p : nat) : bool :=
  (p <? nmod s)%nat && forallb (fun i => existsb (fun e => (fst e =? rx_mo s p i)%nat && (snd e =? p)%nat) (h_rxtab (n_hw s)) && is_sync_mo (rx_mo s p i) s &&
    listb s (rx_mo s p i) (data_rx_id (m_nr (modat s p)) i)) (seq 0 (m_nrx (modat s p))) && is_ctl s (ctl_mo s p) && listb s (ctl_mo s p) (ctl_rx_id (m_nr (modat s p))).
Lemma listb_ok s mo id : listb s mo id = true -> listens s mo id.
Proof. unfold listb, listens. destruct (nth mo (h_filt (n_hw s)) None) as [[f m]|]; [|discriminate]. intro H. apply andb_prop in H. destruct H as [A B]. apply N.eqb_eq in A, B. congruence. Qed.
Lemma compb_ok s p : compb s p = true -> complete E0 s p.
Proof.
  unfold compb. intro H. apply andb_prop in H. destruct H as [H H4]. apply andb_prop in H. destruct H as [H H3]. apply andb_prop in H. destruct H as [H1 H2]. apply Nat.ltb_lt in H1.
  split; [exact H1|]. split; [|intros _; split; [exact H3|apply listb_ok, H4]]. intros i Hi. rewrite forallb_forall in H2. specialize (H2 i ltac:(apply in_seq; lia)).
  apply andb_prop in H2. destruct H2 as [H2 H5]. apply andb_prop in H2. destruct H2 as [H2 H6]. split; [|split; [exact H6|apply listb_ok, H5]].
  apply existsb_exists in H2. destruct H2 as ([a b] & I & Q). apply andb_prop in Q. destruct Q as [Qa Qb]. apply Nat.eqb_eq in Qa, Qb. cbn [fst snd] in *. subst. exact I.
Qed.
Lemma all_compb s : forallb (fun p => negb (in_use (modat s p)) || compb s p) (seq 0 (length (tab_of s))) = true -> in_use modl0 = false -> all_complete E0 s.
Proof.
  intros H H0 p U. destruct (Nat.lt_ge_cases p (length (tab_of s))) as [L|L].
  - rewrite forallb_forall in H. specialize (H p ltac:(apply in_seq; lia)). rewrite U in H. apply compb_ok, H.
  - unfold modat in U. rewrite nth_overflow in U by exact L. congruence.
Qed.
Definition p1 : list op := c01_pre ++ [request 0 15].
Definition p2 : list op := (((p1 ++ [fop mo_1_0 (fd 10 0 8 7)]) ++ [fop mo_2_1 (fd 20 1 8 5)]) ++ [fop mo_2_0 (fd 20 0 7 3)]) ++ [fop mo_2_0 (fd 20 0 8 6)].
Lemma c109_meets : meets_all E0 c109_fs (after p1) (after p2).
Proof.
  unfold c109_fs. cbn [meets_all]. eexists. split; [apply (meets_take p1 mo_1_0); vm_compute; reflexivity|].
  eexists. split; [apply meets_none; vm_compute; reflexivity|]. eexists. split; [apply (meets_take _ mo_2_1); vm_compute; reflexivity|].
  eexists. split; [apply (meets_take _ mo_2_0); vm_compute; reflexivity|]. eexists. split; [apply (meets_take _ mo_2_0); vm_compute; reflexivity|]. reflexivity.
Qed.
Example C109_case : exists s0 s1 s2 s3 new,
  plainly E0 c01_pre s0 /\ all_complete E0 s0 /\ existsb is_request c01_pre = true /\ step E0 (request 0 15) s0 = Ret (tt, s1) /\ Forall proper c109_fs /\
  meets_all E0 c109_fs s1 s2 /\ step E0 (request 1 25) s2 = Ret (tt, s3) /\ added s2 s3 new /\
  verdicts new = [(0%nat, true); (1%nat, true)] /\ map (fun p => listening s0 p) [0;1]%nat = [1;2]%nat /\ times true c109_fs 20 0 8 = 1%nat /\ times true c109_fs 20 0 7 = 1%nat /\
  own_memory s1 1 1 2 /\ nth_error (n_mem s3) 2 = Some (repeat 5 8).
Proof.
  exists (after c01_pre), (after p1), (after p2), (after (p2 ++ [request 1 25])), (delta p2 [request 1 25]).
  split; [split; [apply plainb_ok; vm_compute; reflexivity|apply reached_after; vm_compute; reflexivity]|].
  split; [apply all_compb; vm_compute; reflexivity|]. split; [vm_compute; reflexivity|]. split; [apply after_step; vm_compute; reflexivity|].
  split; [repeat constructor; cbn; lia|]. split; [exact c109_meets|]. split; [apply after_step; vm_compute; reflexivity|]. split; [unfold added; vm_compute; reflexivity|].
  split; [vm_compute; reflexivity|]. split; [vm_compute; reflexivity|]. split; [vm_compute; reflexivity|]. split; [vm_compute; reflexivity|].
  split; [apply ownb_ok; vm_compute; reflexivity|vm_compute; reflexivity].
Qed.
(** an object sent twice: the module is not valid, the other one is *)
Definition c109_twice : list feed := [fd 20 1 8 5; fd 10 0 8 7; fd 20 0 8 6; fd 20 1 8 5].
Definition p3 : list op := (((p1 ++ [fop mo_2_1 (fd 20 1 8 5)]) ++ [fop mo_1_0 (fd 10 0 8 7)]) ++ [fop mo_2_0 (fd 20 0 8 6)]) ++ [fop mo_2_1 (fd 20 1 8 5)].
Example C109_twice : meets_all E0 c109_twice (after p1) (after p3) /\ Forall proper c109_twice /\ times true c109_twice 20 1 8 = 2%nat /\ times true c109_twice 10 0 8 = 1%nat /\
  verdicts (delta p3 [request 1 25]) = [(0%nat, true); (1%nat, false)].
Proof.
  split; [|split; [repeat constructor; cbn; lia|repeat split; vm_compute; reflexivity]].
  unfold c109_twice. cbn [meets_all]. eexists. split; [apply (meets_take p1 mo_2_1); vm_compute; reflexivity|].
  eexists. split; [apply (meets_take _ mo_1_0); vm_compute; reflexivity|]. eexists. split; [apply (meets_take _ mo_2_0); vm_compute; reflexivity|].
  eexists. split; [apply (meets_take _ mo_2_1); vm_compute; reflexivity|]. reflexivity.
Qed.
