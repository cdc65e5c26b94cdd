(** Switching the transmission of single objects: proofs. *)
From Verif Require Import Words WordsFacts Bits ErrModel NodeModel NodeLib NodeInv NodeSpec NodeHw NodeCnt NodeSync NodeImage NodeSilent NodePres NodeSysP NodeTx NodeSend TxSwModel TxSwSpec.

Definition but_tx (s s' : node) : Prop :=
  s' = set_n_tx s (n_tx s') /\ x_end (n_tx s') = x_end (n_tx s) /\ x_id (n_tx s') = x_id (n_tx s) /\ x_dlc (n_tx s') = x_dlc (n_tx s).
Lemma but_tx_refl s : but_tx s s.
Proof. repeat split. destruct s; reflexivity. Qed.
Lemma but_tx_trans a b c : but_tx a b -> but_tx b c -> but_tx a c.
Proof.
  intros (A1 & A2 & A3 & A4) (B1 & B2 & B3 & B4). repeat split; try congruence.
  rewrite B1 at 1. rewrite A1. destruct a; reflexivity.
Qed.
Lemma ltest reg p o n b : (NOBJ * p + o < 32)%nat ->
  N.testbit (if b : bool then N.lor reg (txbit p o) else N.ldiff reg (txbit p o)) (N.of_nat n) = if (n =? NOBJ * p + o)%nat then b else N.testbit reg (N.of_nat n).
Proof.
  intro H. destruct b; [rewrite N.lor_spec|rewrite N.ldiff_spec]; rewrite txbit_test by exact H; destruct (n =? NOBJ * p + o)%nat; cbn [negb];
    rewrite ?orb_true_r, ?orb_false_r, ?andb_true_r, ?andb_false_r; reflexivity.
Qed.
Lemma switch_inv p o b s u s' : tx_switch (p, o, b) s = Ret (u, s') ->
  but_tx s s' /\ x_reg (n_tx s') = if b then N.lor (x_reg (n_tx s)) (txbit p o) else N.ldiff (x_reg (n_tx s)) (txbit p o).
Proof. destruct b; intro H; injection H as <- <-; repeat split. Qed.
Lemma switches_total l : forall s, exists s', tx_switches l s = Ret (tt, s').
Proof.
  induction l as [|[[p o] b] l IH]; intro s; [exists s; reflexivity|]. cbn [tx_switches]. unfold bind.
  destruct b; cbn [tx_switch fst snd]; unfold tx_data_on, tx_data_off, modify; cbv beta iota; apply IH.
Qed.
Lemma switches_inv l : forall s u s', Forall (fun c => (fst (fst c) < 8)%nat /\ (snd (fst c) < NOBJ)%nat) l -> tx_switches l s = Ret (u, s') ->
  but_tx s s' /\ forall p o, (o < NOBJ)%nat -> N.testbit (x_reg (n_tx s')) (N.of_nat (NOBJ * p + o)) = last_call p o (N.testbit (x_reg (n_tx s)) (N.of_nat (NOBJ * p + o))) l.
Proof.
  induction l as [|[[p o] b] l IH]; intros s u s' F H.
  - injection H as <- <-. split; [apply but_tx_refl|reflexivity].
  - inversion F as [|? ? [F1 F2] F3]; subst. cbn [fst snd] in F1, F2. cbn [tx_switches] in H. mbind H as v s1 H1. apply switch_inv in H1. destruct H1 as [B1 R1].
    destruct (IH _ _ _ F3 H) as [B2 R2]. split; [eapply but_tx_trans; eauto|]. intros p' o' L. rewrite R2 by exact L. cbn [last_call]. f_equal.
    rewrite R1, ltest by (unfold NOBJ in *; lia).
    destruct (Nat.eqb_spec (NOBJ * p' + o') (NOBJ * p + o)), (Nat.eqb_spec p p'), (Nat.eqb_spec o o'); cbn [andb]; auto; exfalso; unfold NOBJ in *; lia.
Qed.

Section S.
Variable E : env.
Hypothesis HE : env_ok E.
Lemma in_all s p o : WF E s -> In (p, o) (all_objs s) <-> (p < MAXM E)%nat /\ (o < m_ntx (modat s p))%nat.
Proof.
  intro W. unfold all_objs. rewrite (tab_len E s W), in_flat_map. split.
  - intros (q & Hq & H). apply in_seq in Hq. apply in_map_iff in H. destruct H as (o' & Q & Ho). injection Q as -> ->. apply in_seq in Ho. lia.
  - intros [H1 H2]. exists p. split; [apply in_seq; lia|]. apply in_map_iff. exists o. split; auto. apply in_seq. lia.
Qed.
Lemma last_other p o b l : ~ In (p, o) (map fst l) -> last_call p o b l = b.
Proof.
  revert b. induction l as [|[[p' o'] b'] l IH]; intros b H; cbn [last_call]; auto. cbn [map fst] in H.
  rewrite IH by (intro I; apply H; right; exact I). destruct (Nat.eqb_spec p' p), (Nat.eqb_spec o' o); cbn [andb]; auto. subst. exfalso. apply H. left. reflexivity.
Qed.
Lemma filter_map' {A B} (f : B -> bool) (g : A -> B) l : filter f (map g l) = map g (filter (fun x => f (g x)) l).
Proof. induction l as [|x l IH]; cbn; auto. rewrite IH. destruct (f (g x)); reflexivity. Qed.
Lemma filter_flat {A B} (f : B -> bool) (g : A -> list B) l : filter f (flat_map g l) = flat_map (fun x => filter f (g x)) l.
Proof. induction l as [|x l IH]; cbn; auto. rewrite filter_app, IH. reflexivity. Qed.
Lemma filter_and (f : nat -> bool) n m : (n <= m)%nat -> filter (fun o => (o <? n)%nat && f o) (seq 0 m) = filter f (seq 0 n).
Proof.
  intro H. replace m with (n + (m - n))%nat by lia. rewrite seq_app, filter_app.
  rewrite (filter_ext_in _ f (seq 0 n)) by (intros a Ha; apply in_seq in Ha; destruct (Nat.ltb_spec a n); [reflexivity|lia]).
  rewrite (filter_ext_in _ (fun _ => false) (seq (0 + n) (m - n))) by (intros a Ha; apply in_seq in Ha; destruct (Nat.ltb_spec a n); [lia|reflexivity]).
  replace (filter (fun _ => false) _) with (@nil nat) by (induction (seq (0 + n) (m - n)); auto). apply app_nil_r.
Qed.
Lemma filter_len {A} (f : A -> bool) l : (length (filter f l) <= length l)%nat.
Proof. induction l as [|x l IH]; cbn; auto. destruct (f x); cbn; lia. Qed.
(** what the calls lead to *)
Record Sw (s s1 : node) (l : list sw) : Prop := {
  sw_b : but_tx s s1;
  sw_bits : forall p o, (p < MAXM E)%nat -> (o < NOBJ)%nat -> N.testbit (x_reg (n_tx s1)) (N.of_nat (NOBJ * p + o)) = (o <? ntx s p)%nat && last_call p o (awake s p) l;
  sw_high : forall n, (NOBJ * MAXM E <= n)%nat -> N.testbit (x_reg (n_tx s1)) (N.of_nat n) = false
}.
Lemma Sw_ok s s1 l u : WF E s -> TxI E s -> (forall c, In c l -> In (fst c) (all_objs s)) -> tx_switches l s = Ret (u, s1) -> Sw s s1 l.
Proof.
  intros W I Hl H. assert (forall c, In c l -> (fst (fst c) < MAXM E)%nat /\ (snd (fst c) < ntx s (fst (fst c)))%nat /\ (snd (fst c) < NOBJ)%nat) as Hc.
  { intros [[p o] b] Hin. apply Hl in Hin. cbn [fst snd] in *. apply in_all in Hin; auto. destruct Hin as [H1 H2]. pose proof (modat_ok E s p W) as (_ & M & _). unfold ntx. lia. }
  destruct (switches_inv l s u s1) as [B R]; auto.
  { apply Forall_forall. intros c Hin. apply Hc in Hin. destruct HE as ((_ & M8) & _). lia. }
  assert (forall n, N.testbit (x_reg (n_tx s1)) (N.of_nat n) = last_call (n / NOBJ) (n mod NOBJ) (N.testbit (x_reg (n_tx s)) (N.of_nat n)) l) as R'.
  { intro n. pose proof (Nat.div_mod n NOBJ ltac:(discriminate)) as Q. rewrite Q at 1 4. rewrite <- R by (apply Nat.mod_upper_bound; discriminate). reflexivity. }
  split; auto.
  - intros p o Lp Lo. rewrite R by exact Lo. pose proof (tg_bits E _ _ _ (ti_g E s I) p o Lp Lo) as Bt. unfold cyclic in Bt. change 4%nat with NOBJ in Bt. rewrite Bt.
    destruct (Nat.ltb_spec o (ntx s p)) as [L|L]; cbn [andb]; [rewrite andb_true_r; reflexivity|]. rewrite andb_false_r. apply last_other.
    intro Hin. apply in_map_iff in Hin. destruct Hin as (c & Q & Hin). apply Hc in Hin. rewrite Q in Hin. cbn [fst snd] in Hin. lia.
  - intros n Hn. rewrite R'. rewrite (tg_high E _ _ _ (ti_g E s I)) by exact Hn. apply last_other.
    intro Hin. apply in_map_iff in Hin. destruct Hin as (c & Q & Hin). apply Hc in Hin. rewrite Q in Hin. cbn [fst snd] in Hin.
    pose proof (Nat.div_le_lower_bound n NOBJ (MAXM E) ltac:(discriminate) Hn). lia.
Qed.
Lemma Sw_beyond s s1 l n : TxI E s -> Sw s s1 l -> (x_end (n_tx s1) < n)%nat -> N.testbit (x_reg (n_tx s1)) (N.of_nat n) = false.
Proof.
  intros I S Hn. destruct (Nat.le_gt_cases (NOBJ * MAXM E) n) as [L|L]; [eapply sw_high; eauto|].
  set (p := (n / NOBJ)%nat). set (o := (n mod NOBJ)%nat). assert (n = NOBJ * p + o)%nat as Q by (apply Nat.div_mod; discriminate).
  assert (o < NOBJ)%nat as Lo by (apply Nat.mod_upper_bound; discriminate). assert (p < MAXM E)%nat as Lp by (unfold NOBJ in *; lia).
  rewrite Q, (sw_bits _ _ _ S p o Lp Lo). destruct (Nat.ltb_spec o (ntx s p)) as [L2|L2]; cbn [andb]; auto. exfalso.
  pose proof (tg_end E _ _ _ (ti_g E s I) p o Lp L2). destruct (sw_b _ _ _ S) as (_ & X & _). lia.
Qed.
Lemma Sw_wanted s s1 l : WF E s -> TxI E s -> Sw s s1 l -> setbits (x_reg (n_tx s1)) 0 (S (x_end (n_tx s1))) = map enc (wanted s l).
Proof.
  intros W I S. rewrite (setbits_same _ _ (NOBJ * MAXM E)).
  - rewrite setbits_blocks. unfold wanted, all_objs. rewrite filter_flat, map_flat_map, (tab_len E s W). apply flat_map_ext_in'. intros p Hp. apply in_seq in Hp.
    rewrite filter_map', map_map. cbn [fst snd]. rewrite (filter_ext_in _ (fun o => (o <? ntx s p)%nat && last_call p o (awake s p) l)).
    + rewrite filter_and by apply (modat_ok E s p W). reflexivity.
    + intros o Ho. apply in_seq in Ho. apply (sw_bits _ _ _ S); lia.
  - intros n Hn. eapply Sw_beyond; eauto.
  - intros n Hn. eapply sw_high; eauto.
Qed.
Lemma wanted_short s l : WF E s -> (length (wanted s l) <= 32)%nat.
Proof.
  intro W. unfold wanted. etransitivity; [apply filter_len|]. unfold all_objs. rewrite (tab_len E s W). destruct HE as ((_ & M8) & _).
  assert (forall m k, (length (flat_map (fun p => map (fun o => (p, o)) (seq 0 (m_ntx (modat s p)))) (seq k m)) <= 4 * m)%nat) as F.
  { induction m as [|m IH]; intro k; cbn [seq flat_map]; [cbn; lia|]. rewrite app_length, map_length, seq_length. specialize (IH (S k)).
    assert (m_ntx (modat s k) <= NOBJ)%nat as L by apply (modat_ok E s k W). unfold NOBJ in L. lia. }
  specialize (F (MAXM E) 0%nat). lia.
Qed.
Lemma wanted_ok s s1 l : WF E s -> TxI E s -> Sw s s1 l -> Forall (fun x => tx_ok E s1 (fst x) (snd x)) (wanted s l).
Proof.
  intros W I S. apply Forall_forall. intros [p o] H. apply filter_In in H. destruct H as [H _]. apply in_all in H; auto. destruct H as [Lp Lo]. cbn [fst snd].
  pose proof (modat_ok E s p W) as (_ & M & _). destruct (tg_data E _ _ _ (ti_g E s I) p o) as [D1 D2]; [lia|unfold ntx; lia|].
  destruct (sw_b _ _ _ S) as (B1 & _ & B3 & B4). assert (modat s1 p = modat s p) as Q by (rewrite B1; reflexivity).
  split; [lia|]. split; [lia|]. rewrite Q, B3, B4. split; [|exact D2]. rewrite D1. pose proof (ti_nr E s I p). apply can_ident_data; lia.
Qed.
(** the same for a state with other memory, reported errors or log *)
Lemma Sw_all s s1 s2 l : Sw s s1 l -> n_tx s2 = n_tx s1 -> WF E s -> TxI E s -> send_process_data E s2 = send_all E (map enc (wanted s l)) (JUNK E) s2.
Proof.
  intros S T W I. unfold send_process_data, bind. cbn [gets]. rewrite <- (Sw_wanted s s1 l W I S). rewrite T. set (reg := x_reg (n_tx s1)). set (xe := x_end (n_tx s1)).
  change (reg) with (N.shiftr reg (N.of_nat 0)) at 1. assert (length (setbits reg 0 (Datatypes.S xe)) < SEND_FUEL)%nat as L.
  { unfold reg, xe. rewrite (Sw_wanted s s1 l W I S), map_length. pose proof (wanted_short s l W). unfold SEND_FUEL. lia. }
  revert L. generalize SEND_FUEL. intros fuel L. rewrite (send_loop_all E reg xe); [rewrite Nat.sub_0_r; reflexivity| |lia|rewrite T; reflexivity|rewrite Nat.sub_0_r; exact L].
  intros n Hn. eapply Sw_beyond; eauto.
Qed.
Lemma Sw_later s s1 s2 l : Sw s s1 l -> n_cfg s2 = n_cfg s1 -> n_tx s2 = n_tx s1 -> WF E s -> TxI E s ->
  send_process_data E s2 = send_all E (map enc (wanted s l)) (JUNK E) s2 /\ Forall (fun x => tx_ok E s2 (fst x) (snd x)) (wanted s l).
Proof.
  intros S C T W I. split; [eapply Sw_all; eauto|].
  pose proof (wanted_ok s s1 l W I S) as F. revert F. apply Forall_impl. intros x (A1 & A2 & A3 & A4). unfold tx_ok, modat, tab_of in *. rewrite C, T. auto.
Qed.
Lemma switched_frames pre l id dlc data now s s1 s' : Forall (plain E) pre -> reached E pre s -> (forall c, In c l -> In (fst c) (all_objs s)) -> tx_switches l s = Ret (tt, s1) ->
  step E (OpFrame MO_PROCESS id dlc data now) s1 = Ret (tt, s') ->
  exists new st, added s s' new /\ reports (m_nr (modat s 0)) (n_err s) st /\
    sent new = cyc_frames s (wanted s l) (JUNK E) ++ match pending_errors st with [] => [] | e :: _ => error_tx s e end.
Proof.
  intros Fp R Hl Hs H. pose proof (WF_reached E _ _ R) as W. pose proof (TxI_reached E HE _ _ Fp R) as I. pose proof (HwI_reached E _ _ R) as Hw.
  pose proof (Sw_ok s s1 l tt W I Hl Hs) as S. destruct (sw_b _ _ _ S) as (Bs & _ & _ & _).
  assert (n_cfg s1 = n_cfg s) as C0 by (rewrite Bs; reflexivity). assert (n_mem s1 = n_mem s) as M0 by (rewrite Bs; reflexivity).
  assert (n_err s1 = n_err s) as E0 by (rewrite Bs; reflexivity). assert (n_log s1 = n_log s) as L0 by (rewrite Bs; reflexivity).
  assert (HwI E s1) as Hw1 by (rewrite Bs; exact Hw).
  assert (0 < length (tab_of s))%nat as Hlen by (rewrite (tab_len E s W); apply HE). pose proof (TxI_numbers E s W I) as Hn.
  eapply step_request in H; [|reflexivity|exact Hw1]. unfold on_process in H.
  mbind H as u1 s2 H1. pose proof (mem_request _ _ _ H1) as M1. apply mute_request in H1.
  mbind H as u2 s3 H2. pose proof (mem_check _ _ _ _ H2) as M2. apply mute_check in H2.
  destruct H1 as (C1 & T1 & E1 & n1 & L1 & S1). destruct H2 as (C2 & T2 & E2 & n2 & L2 & S2).
  mbind H as u3 s4 H3. destruct (Sw_later s s1 s3 l S) as [Q Ok]; auto; try congruence. pose proof H3 as H3'. rewrite Q in H3'.
  destruct (send_all_frames E _ _ _ _ _ Ok H3') as (n3 & L3 & S3). rewrite (cyc_frames_cfg s s3) in S3 by (unfold keep_mem in *; congruence).
  apply send_process_cyc in H3. destruct H3 as (O3 & R3 & _).
  mbind H as u4 s5 H4. apply mute_main in H4. destruct H4 as (C4 & T4 & E4 & n4 & L4 & S4). mbind H as c s6 H0. apply gets_inv in H0. destruct H0 as [-> ->].
  assert (n_cfg s5 = n_cfg s) as C by (destruct O3 as (O3 & _); congruence).
  assert (modat s3 0 = modat s 0) as M by (unfold modat, tab_of; congruence). rewrite M, E2, E1, E0 in R3.
  assert (n_log s5 = n_log s ++ (n1 ++ n2 ++ n3 ++ n4)) as L by (rewrite L4, L3, L2, L1, L0, <- !app_assoc; reflexivity).
  assert (sent (n1 ++ n2 ++ n3 ++ n4) = cyc_frames s (wanted s l) (JUNK E)) as Sn by (rewrite !sent_app, S1, S2, S3, S4, app_nil_r; reflexivity).
  unfold err_count in H. rewrite E4 in H. destruct (Nat.eqb_spec (es_count (n_err s4)) 0) as [Z|Z].
  - rewrite Z in H. change (0 <? 0)%nat with false in H. cbv iota in H. apply ret_inv in H. destruct H as [_ ->].
    exists (n1 ++ n2 ++ n3 ++ n4), (n_err s4). unfold pending_errors. rewrite Z, app_nil_r. auto.
  - assert ((0 <? es_count (n_err s4))%nat = true) as Z1 by (apply Nat.ltb_lt; clear -Z; lia). rewrite Z1 in H. apply send_one_error_inv in H.
    + destruct H as (O5 & st & e & r & G & Er & n5 & L5 & S5). rewrite E4 in G. destruct (es_get_head _ _ _ _ Z G) as (-> & x & -> & l' & P).
      exists ((n1 ++ n2 ++ n3 ++ n4) ++ n5), (n_err s4). unfold added. rewrite L5, L, P, sent_app, Sn. split; [rewrite <- !app_assoc; reflexivity|]. split; [exact R3|].
      f_equal. rewrite S5. change (ERR_OK =? ERR_OK) with true. cbv iota. cbn [flat_map]. rewrite app_nil_r. apply error_tx_cfg, C.
    + unfold tab_of. rewrite C. exact Hlen.
    + intros i Hi. unfold modat, tab_of in *. rewrite C in *. apply Hn, Hi.
Qed.
(** the request ends *)
Lemma switched_ends pre l id dlc data now s s1 : Forall (plain E) pre -> reached E pre s -> (forall c, In c l -> In (fst c) (all_objs s)) -> tx_switches l s = Ret (tt, s1) ->
  step E (OpFrame MO_PROCESS id dlc data now) s1 <> Hang.
Proof.
  intros Fp R Hl Hs. pose proof (WF_reached E _ _ R) as W. pose proof (TxI_reached E HE _ _ Fp R) as I.
  pose proof (Sw_ok s s1 l tt W I Hl Hs) as S. cbn [step]. unfold frame_rx. apply ends_at; [discriminate|]. intros sy s0 H0. apply gets_inv in H0. destruct H0 as [-> ->].
  apply ends_at. { destruct (is_sync_mo MO_PROCESS s1); [|discriminate]. apply (ltac:(unfold on_data, rx_data_main; repeat (simple apply ends_call_rx || ends1)) : ends (on_data E MO_PROCESS id dlc data)). }
  intros u s2 H1. assert (n_tx s2 = n_tx s1) as T2.
  { destruct (is_sync_mo MO_PROCESS s1); [|apply ret_inv in H1; destruct H1 as [_ ->]; auto]. apply tx_on_data in H1. apply H1. }
  clear H1. apply ends_at.
  - destruct (MO_PROCESS =? MO_PROCESS)%nat; [|discriminate]. unfold on_process.
    apply ends_at; [unfold process_request_rx; match goal with |- ?m _ <> Hang => apply (ltac:(repeat ends1) : ends m) end|]. intros u2 s3 H2. apply tx_request in H2. destruct H2 as (T3 & _).
    apply ends_at; [apply ends_check|]. intros u3 s4 H3. apply tx_check in H3. destruct H3 as (T4 & _).
    apply ends_at; [rewrite (Sw_all s s1 s4 l S) by (auto; congruence); apply ends_send_all|]. intros u4 s5 _.
    match goal with |- ?m _ <> Hang => apply (ltac:(unfold rx_process_main, send_one_error, send_error; repeat (simple apply ends_sys_tx || ends1)) : ends m) end.
  - intros u2 s3 _. destruct (_ || _); [|discriminate]. unfold on_sys, sys_msg_rx. match goal with |- ?m _ <> Hang => apply (ltac:(repeat (simple apply ends_sys_cmd || ends1)) : ends m) end.
Qed.
End S.
