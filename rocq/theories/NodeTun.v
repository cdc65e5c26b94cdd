(** Lemmas for C97. *)
From Verif Require Import Words WordsFacts Bits ErrModel NodeModel NodeLib NodeInv NodeSpec NodeHw NodeNum NodeMo NodeSync NodeRx NodeSilent NodePres NodeSysP NodeTx NodeTxP NodeNr NodeServModel NodeServ NodeCfg NodeCnt LookModel AsyncModel TunnelModel TunLis NodeTunModel NodeTunSpec.
From Verif Require TunnelSpec.

Section TunP.
Variable E : env.
Hypothesis HE : env_ok E.
Hypothesis HA : ASY E = true.

Definition CI := CtlI E.
Lemma data_gets s id dlc data now : CI s -> dlc <= 8 -> main_rx E false MO_ASYNC_DATA id dlc data now s = Ret ([HTunnel dlc data], s).
Proof.
  intros I L. 
  assert (In MO_ASYNC_DATA (reserved E)) as Rs by (unfold reserved; rewrite HA; apply in_or_app; right; apply in_or_app; right; left; reflexivity).
  assert (is_ctl s MO_ASYNC_DATA = false) as C by (apply (not_ctl E); assumption).
  assert (NodeSpec.owner s MO_ASYNC_DATA = None) as O.
  { destruct (NodeSpec.owner s MO_ASYNC_DATA) as [p|] eqn:O; [|reflexivity]. pose proof (owner_in _ _ _ O) as Oi. destruct I as ((_ & I2 & _) & _). destruct (I2 _ Oi) as [_ Nr]. contradiction. }
  assert (sys_mo E MO_ASYNC_DATA = false) as Sm.
  { destruct (sys_mo E MO_ASYNC_DATA) eqn:Q; [|reflexivity]. apply sys_not_other in Q. tauto. }
  rewrite main_rx_eq by (exact L || (unfold MO_ASYNC_DATA; lia)). pose proof (NodeCfg.unregistered E MO_ASYNC_DATA id dlc data now s O ltac:(discriminate) Sm) as H. cbn [step] in H. rewrite H.
  unfold handed_out. rewrite HA, C. reflexivity.
Qed.

Definition narrow (nr : N) (s : node) : Prop := CI s /\ filt s MO_ASYNC_DATA = Some (async_rx_id nr, MASK_ONE).

Lemma define_ok id s e s' : CI s -> length (h_filt (n_hw s)) = NMSG E -> ok1 s = true -> id <= 2047 -> define_obj E MO_ASYNC_DATA id MASK_ONE 8 true SvAsync false s = Ret (e, s') ->
  CI s' /\ filt s' MO_ASYNC_DATA = Some (id, MASK_ONE).
Proof.
  intros C L O Hi H. split; [assert (pres (CtlR E) (define_obj E MO_ASYNC_DATA id MASK_ONE 8 true SvAsync false)) as P by (apply CtlR_define; try exact HE; try exact HA; discriminate); exact (P _ _ _ H C)|].
  assert (e = ERR_OK) as He.
  { pose proof HE as HE'. destruct HE' as (_ & HN & _). unfold define_obj in H.
    replace (negb (MO_ASYNC_DATA <? NMSG E)%nat) with false in H by (symmetry; apply negb_false_iff, Nat.ltb_lt; unfold MO_ASYNC_DATA; lia).
    replace (2047 <? id) with false in H by (symmetry; apply N.ltb_ge; exact Hi).
    change (8 <? u8 8) with false in H. rewrite !andb_false_r in H. unfold andthen in H. mbind H as e1 s1 H1.
    assert (e1 = ERR_OK) as ->.
    { unfold hw_define in H1. mbind H1 as u2 s2 H2. apply guard_inv in H2. destruct H2 as [_ ->]. mbind H1 as u3 s3 H3. apply modify_inv in H3. subst s3.
      mbind H1 as ok s4 H4. assert (ok = true) as ->.
      { unfold ask in H4. unfold ok1 in O. cbn in H4. destruct (n_orc s); [injection H4 as <- _; reflexivity|]. injection H4 as <- _. exact O. }
      cbv iota in H1. mbind H1 as u5 s5 H5. apply ret_inv in H1. apply H1. }
    change (ERR_OK =? ERR_OK) with true in H. cbv iota in H. mbind H as u6 s6 H6. apply ret_inv in H. apply H. }
  apply define_obj_full in H; [|exact HE]. destruct H as (_ & _ & _ & _ & _ & _ & H). destruct (H He) as (_ & _ & H2 & _). exact (H2 L).
Qed.
Lemma listen_none obs s : nolis obs -> listen E obs s = Ret (tt, s).
Proof.
  induction 1 as [|o l H Hl IH]; [reflexivity|]. destruct o; try exact IH. destruct H.
Qed.
Lemma lis_id nr : 1 <= nr <= 127 -> u16 ((nr + 65535) * 4 + 1538) = async_rx_id nr /\ async_rx_id nr <= 2047.
Proof. intro H. unfold u16, async_rx_id. lia. Qed.
Lemma opened w o out w1 : steady E (WTun o) -> CI (w_node w) -> length (h_filt (n_hw (w_node w))) = NMSG E -> ok1 (w_node w) = true ->
  wstep E w (WTun o) = Ret (out, w1) -> acknowledged out -> exists nr, 1 <= nr <= 127 /\ open_for w1 nr /\ narrow nr (w_node w1).
Proof.
  intros K C L O H (x & Hx & Ha). cbn [wstep steady] in *. destruct (ctl_known (w_node w) o); [|injection H as <- <-; destruct Hx].
  destruct (tstep (w_tun w) o) as [[t' [e obs]]|] eqn:T; [|discriminate].
  destruct (step_lis _ _ _ _ _ K T) as [Nl|(nr & peer & Rn & -> & Ow)].
  - exfalso. rewrite (listen_none _ _ Nl) in H. injection H as <- <-. apply in_map_iff in Hx. destruct Hx as (y & Hy & Iy). injection Hy as ->.
    pose proof (proj1 (Exists_exists TunnelSpec.is_open_ack obs)) as _. destruct o as [nr d p|lk dat irqs|lk now thr|hw| | |];
      try (destruct (TunnelProofs.other_frame _ _ _ _ _ T ltac:(discriminate)) as [_ N]; apply N; apply Exists_exists; eauto).
    cbn [tstep] in T. destruct (TunnelModel.tunnel_rx (w_tun w) nr d p) as [[[t1 e1] o1]|] eqn:Q; [|discriminate]. injection T as <- <- <-. destruct K as (_ & K2 & _).
    assert (Exists TunnelSpec.is_open_ack o1) as X by (apply Exists_exists; eauto).
    destruct (TunnelProofs.eight d K2) as (c & pr & d2 & d3 & d4 & d5 & d6 & d7 & ->). rewrite (TunnelProofs.rx_cons _ _ _ _ _ _ _ _ _ _ _ _ eq_refl) in Q. cbv zeta in Q.
    repeat match type of Q with
    | (if ?b then _ else _) = _ => destruct b eqn:?
    | match tn_state ?t with _ => _ end = _ => destruct (tn_state t) eqn:?
    | Some (_, _, if ?b then _ else _) = _ => destruct b eqn:?
    end; injection Q as <- <- <-;
    try (revert X; first [apply TunnelProofs.no_ack_nil | apply TunnelProofs.no_ack_one; intros; cbn; discriminate]).
    inversion Nl as [|? ? Q1 Q2]. destruct Q1.
  - exists nr. split; [exact Rn|]. destruct (lis_id nr Rn) as [Li Ll]. 
    destruct (listen E [TListen (u16 ((nr + 65535) * 4 + 1538)); respond t' ROpenAck peer nr] (w_node w)) as [[u s]| |] eqn:D; try discriminate.
    rewrite Li in D. cbn [listen] in D. injection H as <- <-.
    split; [exists peer; exact Ow|]. mbind D as u1 s1 D1. unfold ignore in D1. mbind D1 as e1 s2 D2. apply ret_inv in D1. destruct D1 as [_ ->].
    rewrite (listen_none [respond t' ROpenAck peer nr] _ ltac:(apply lis_one; exact I)) in D. assert (s = s2) as -> by congruence. exact (define_ok _ _ _ _ C L O Ll D2).
Qed.
Lemma narrow_step nr w o out w1 : steady E o -> narrow nr (w_node w) -> wstep E w o = Ret (out, w1) -> ~ acknowledged out -> narrow nr (w_node w1).
Proof.
  intros K [C F] H Na. destruct o as [o|o|id dlc data now]; cbn [wstep steady] in *.
  - destruct (step E o (w_node w)) as [[[] s]| |] eqn:S; try discriminate. injection H as <- <-. destruct K as [Po Ho]. split; [exact (CtlR_step E HE o _ _ _ S C)|].
    apply (plain_still E o Po Ho) in S. destruct S as (_ & _ & _ & _ & S & _). unfold filt in *. cbn [w_node]. rewrite S. exact F.
  - destruct (ctl_known (w_node w) o); [|injection H as <- <-; split; assumption].
    destruct (tstep (w_tun w) o) as [[t' [e obs]]|] eqn:T; [|discriminate]. destruct (step_lis _ _ _ _ _ K T) as [Nl|(nr' & peer & Rn & -> & Ow)].
    + rewrite (listen_none _ _ Nl) in H. injection H as <- <-. split; assumption.
    + exfalso. destruct (listen E _ (w_node w)) as [[u s]| |]; try discriminate. injection H as <- <-. apply Na. eexists. split; [right; left; reflexivity|apply ack_is].
  - destruct (accepts (w_node w) MO_ASYNC_DATA id); [|injection H as <- <-; split; assumption].
    rewrite (data_gets _ _ _ _ _ C (proj2 K)) in H. injection H as <- <-. split; assumption.
Qed.
Lemma ack_app a b : acknowledged (a ++ b) <-> acknowledged a \/ acknowledged b.
Proof.
  unfold acknowledged. split.
  - intros (o & Hi & Ho). apply in_app_or in Hi. destruct Hi as [Hi|Hi]; [left|right]; eauto.
  - intros [(o & Hi & Ho)|(o & Hi & Ho)]; exists o; split; auto; apply in_or_app; auto.
Qed.
Lemma narrow_run nr ops : forall w out w1, Forall (steady E) ops -> narrow nr (w_node w) -> wrun E ops w = Ret (out, w1) -> ~ acknowledged out -> narrow nr (w_node w1).
Proof.
  induction ops as [|o ops IH]; intros w out w1 F Nw H Na; cbn [wrun] in H.
  - injection H as <- <-. exact Nw.
  - destruct (wstep E w o) as [[a wa]| |] eqn:S; try discriminate. destruct (wrun E ops wa) as [[c wc]| |] eqn:R; try discriminate. injection H as <- <-.
    inversion F as [|? ? F1 F2]; subst. rewrite ack_app in Na. eapply IH; [exact F2| |exact R|tauto]. eapply narrow_step; eauto.
Qed.
Lemma one_bit_mask id nr : id < 2048 -> 1 <= nr <= 127 -> (N.land (N.lxor id (async_rx_id nr)) MASK_ONE =? 0) = (id =? async_rx_id nr).
Proof.
  intros Hi Hn. destruct (lis_id nr Hn) as [_ Hl]. destruct (N.eqb_spec id (async_rx_id nr)) as [->|Ne].
  - rewrite N.lxor_nilpotent. reflexivity.
  - apply N.eqb_neq. intro Z. apply Ne. apply N.lxor_eq. 
    assert (N.land (N.lxor id (async_rx_id nr)) MASK_ONE = N.lxor id (async_rx_id nr)) as Q; [|congruence].
    change MASK_ONE with (N.ones 11). rewrite N.land_ones. apply N.mod_small. change (2 ^ 11) with 2048.
    destruct (N.eq_dec (N.lxor id (async_rx_id nr)) 0) as [->|Nz]; [lia|].
    apply N.log2_lt_pow2 with (b := 11); [lia|].
    eapply N.le_lt_trans; [apply N.log2_lxor|]. apply N.max_lub_lt; [destruct (N.eq_dec id 0) as [->|]; [reflexivity|]|destruct (N.eq_dec (async_rx_id nr) 0) as [->|]; [reflexivity|]]; apply N.log2_lt_pow2; try lia; change (2 ^ 11) with 2048; lia.
Qed.
Lemma narrow_data nr w id dlc data now : 1 <= nr <= 127 -> narrow nr (w_node w) -> id < 2048 -> dlc <= 8 ->
  wstep E w (WData id dlc data now) = Ret (if id =? async_rx_id nr then [WPort dlc data] else [], w).
Proof.
  intros Rn [C F] Hi Hd. cbn [wstep]. unfold accepts. unfold filt in F. rewrite F. rewrite one_bit_mask by assumption.
  destruct (id =? async_rx_id nr); [|reflexivity]. rewrite (data_gets _ _ _ _ _ C Hd). destruct w; reflexivity.
Qed.
Lemma heard_data w id dlc data now : CI (w_node w) -> passes (w_node w) MO_ASYNC_DATA id -> dlc <= 8 ->
  wstep E w (WData id dlc data now) = Ret ([WPort dlc data], w).
Proof.
  intros C P Hd. cbn [wstep]. unfold accepts. unfold passes in P. destruct (nth MO_ASYNC_DATA (h_filt (n_hw (w_node w))) None) as [[f m]|]; [|destruct P]. rewrite P. cbn [N.eqb].
  rewrite (data_gets _ _ _ _ _ C Hd). destruct w; reflexivity.
Qed.

Definition okn (s : node) : Prop := CI s /\ WF E s.
Lemma ok_define id s u s' : okn s -> ignore (define_obj E MO_ASYNC_DATA id MASK_ONE 8 true SvAsync false) s = Ret (u, s') -> okn s'.
Proof.
  intros [C W] H. unfold ignore in H. mbind H as e s1 H1. apply ret_inv in H. destruct H as [_ ->]. split.
  - assert (pres (CtlR E) (define_obj E MO_ASYNC_DATA id MASK_ONE 8 true SvAsync false)) as P by (apply CtlR_define; try exact HE; discriminate). exact (P _ _ _ H1 C).
  - assert (pres (WFR E) (define_obj E MO_ASYNC_DATA id MASK_ONE 8 true SvAsync false)) as P by (apply wf_define_obj). exact (P _ _ _ H1 W).
Qed.
Lemma ok_listen obs : forall s u s', okn s -> listen E obs s = Ret (u, s') -> okn s'.
Proof.
  induction obs as [|o obs IH]; intros s u s' K H; cbn [listen] in H; [apply ret_inv in H; destruct H as [_ ->]; exact K|].
  destruct o; try (eapply IH; eauto; fail). mbind H as u1 s1 H1. eapply IH; [|exact H]. eapply ok_define; eauto.
Qed.
Lemma ok_step w o out w1 : fits o -> okn (w_node w) -> wstep E w o = Ret (out, w1) -> okn (w_node w1).
Proof.
  intros F K H. destruct o as [o|o|id dlc data now]; cbn [wstep fits] in *.
  - destruct (step E o (w_node w)) as [[[] s]| |] eqn:S; try discriminate. injection H as <- <-. destruct K as [C W]. split; [exact (CtlR_step E HE o _ _ _ S C)|exact (wf_step E o _ _ _ S W)].
  - destruct (ctl_known (w_node w) o); [|injection H as <- <-; exact K]. destruct (tstep (w_tun w) o) as [[t [e obs]]|]; [|discriminate].
    destruct (listen E obs (w_node w)) as [[u s]| |] eqn:L; try discriminate. injection H as <- <-. eapply ok_listen; eauto.
  - destruct (accepts (w_node w) MO_ASYNC_DATA id); [|injection H as <- <-; exact K].
    rewrite (data_gets _ _ _ _ _ (proj1 K) (proj2 F)) in H. injection H as <- <-. exact K.
Qed.
Lemma ok_run ops : forall w out w1, Forall fits ops -> okn (w_node w) -> wrun E ops w = Ret (out, w1) -> okn (w_node w1).
Proof.
  induction ops as [|o ops IH]; intros w out w1 F K H; cbn [wrun] in H; [injection H as <- <-; exact K|].
  destruct (wstep E w o) as [[a wa]| |] eqn:S; try discriminate. destruct (wrun E ops wa) as [[c wc]| |] eqn:R; try discriminate. injection H as <- <-.
  inversion F as [|? ? F1 F2]; subst. eapply IH; [exact F2| |exact R]. eapply ok_step; eauto.
Qed.
Lemma ok_reached ops out w : Forall fits ops -> wreached E ops out w -> okn (w_node w).
Proof.
  intros F (s0 & B & R). refine (ok_run _ _ _ _ F _ R). assert (reached E [] s0) as Rs by (exists s0; split; [exact B|reflexivity]).
  split; [exact (CtlI_reached E HE _ _ Rs)|exact (WF_reached E _ _ Rs)].
Qed.
Lemma after_open pre out0 w0 o out1 w1 ops out2 w2 nr : Forall fits pre -> wreached E pre out0 w0 -> ok1 (w_node w0) = true ->
  fits (WTun o) -> wstep E w0 (WTun o) = Ret (out1, w1) -> acknowledged out1 -> open_for w1 nr ->
  Forall (steady E) ops -> wrun E ops w1 = Ret (out2, w2) -> ~ acknowledged out2 -> 1 <= nr <= 127 /\ narrow nr (w_node w2).
Proof.
  intros F R O K S A Op Fs Rn Na. destruct (ok_reached _ _ _ F R) as [C W]. destruct W as (_ & _ & (_ & L) & _).
  destruct (opened w0 o out1 w1 K C L O S A) as (nr' & Rr & (peer' & Op') & Nw). destruct Op as [peer Op]. rewrite Op in Op'. injection Op' as <- _.
  split; [exact Rr|]. exact (narrow_run nr ops w1 out2 w2 Fs Nw Rn Na).
Qed.
(** an addition at any moment, also while the tunnel is open (NodeCfg.hears_added without the history) *)
Lemma hears_added_now d nr rxs txs s s' i : okn s -> step E (OpAdd d nr rxs txs) s = Ret (tt, s') -> next_pos s = Some i ->
  reported s s' \/ (n_err s' = n_err s /\ forall nr', 1 <= nr' <= 128 -> nr' = 1 \/ (exists p, (p <= i)%nat /\ m_nr (modat s' p) = nr') -> hears E s' nr').
Proof.
  intros [I W] H Np. cbn [step] in H. unfold ignore in H. mbind H as e s0 H0. apply ret_inv in H. destruct H as [_ ->].
  pose proof (wf_add_module E _ _ _ _ _ _ _ H0 W) as W0. pose proof (next_pos_spec _ _ Np) as (Li & _). rewrite (tab_len E s W) in Li. eapply (add_mo E HE) in H0; eauto. destruct H0 as (s1 & c & Hr & Er & Ca & Oa & Ka & Na & Ad). pose proof (report_cfg _ _ _ Hr) as (Q1 & Q2 & Q3). apply report_if_inv in Hr.
  destruct (c =? ERR_OK) eqn:Ec.
  - right. subst s0. split; [exact Er|]. apply N.eqb_eq in Ec. destruct (Ad Ec) as [A1 A2 A3 A4 A5]. intros nr' Hr' Hp. eapply (mask_hears E); eauto. destruct Hp as [->|(p & Lp & <-)]; [auto|right].
    apply tab_nth_in; [lia|]. rewrite (tab_len E s1 W0). lia.
  - left. destruct Hr as [Hr (r & Q)]. exists c, r. split; [apply N.eqb_neq; exact Ec|]. rewrite <- Er. unfold nr_main, modat, tab_of in *. rewrite Q1. exact Q.
Qed.
Lemma refused_define id s : id <= 2047 -> n_orc s <> [] -> ok1 s = false ->
  exists s', ignore (define_obj E MO_ASYNC_DATA id MASK_ONE 8 true SvAsync false) s = Ret (tt, s') /\ h_filt (n_hw s') = h_filt (n_hw s).
Proof.
  intros Hi No O. pose proof HE as HE'. destruct HE' as (_ & HN & _). unfold ignore, define_obj.
  assert ((MO_ASYNC_DATA <? NMSG E)%nat = true) as L by (apply Nat.ltb_lt; unfold MO_ASYNC_DATA; lia). rewrite L. cbn [negb].
  replace (2047 <? id) with false by (symmetry; apply N.ltb_ge; exact Hi). change (8 <? u8 8) with false. rewrite !andb_false_r. unfold andthen, hw_define. rewrite L.
  unfold ok1 in O. destruct (n_orc s) as [|x l] eqn:Q; [congruence|]. cbn in O. subst x.
  unfold bind, guard, modify, ask. cbn. rewrite Q. cbn. eexists. split; reflexivity.
Qed.
End TunP.
