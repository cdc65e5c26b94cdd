(** Properties of the asynchronous tunnel (C48, C49, C50, C59, C60). *)
From Verif Require Import Words WordsFacts Bits ErrModel NodeModel LookModel AsyncModel AsyncSpec AsyncProofs TunnelModel TunnelSpec TunnelProofs.

Ltac okops := repeat (apply Forall_cons; [cbn [top_ok]; try exact I; try (split; [lia|split; [reflexivity|repeat (apply Forall_cons; [reflexivity|]); apply Forall_nil] ]); try reflexivity|]); try apply Forall_nil.
Definition port_ok : pouts := POuts 0 0 0.
(** an open tunnel with a byte in it, used in the examples *)
Definition ex_open : list top := [OMsg 5 (open_msg 20 0 1 2) port_ok; OPutc 0 65 []; OPutc 0 66 []].

(** C48: an open request is acknowledged only when the tunnel was free, and makes the requesting peer the owner. *)
Theorem C48_acknowledge_partial : forall t o t' e obs, top_ok o -> tstep t o = Some (t', (e, obs)) -> Exists is_open_ack obs ->
  exists nr d p, o = OMsg nr d p /\ nth 0 d 0 = 1 /\ owner t = None /\ owner t' = Some (nr, nth 1 d 0) /\ po_open p = 0.
Proof.
  intros t o t' e obs K H X. destruct o as [nr d p|lk dat irqs|lk now thr|hw| | |];
    try (exfalso; destruct (other_frame _ _ _ _ _ H ltac:(discriminate)) as [_ N]; exact (N X)).
  cbn [tstep] in H. destruct (tunnel_rx t nr d p) as [[[t1 e1] o1]|] eqn:Q; [|discriminate]. injection H as <- <- <-.
  destruct K as (_ & L & _). destruct (rx_ack _ _ _ _ _ _ _ L Q X) as (A & B & C & D & F). exists nr, d, p. auto.
Qed.
Print Assumptions C48_acknowledge_partial.
(** C48: a free tunnel is given to the peer that asks for it: it gets an acknowledge with the delay it asked for, and the
    node listens to the data messages of its module. *)
Theorem C48_granted_partial : forall t nr peer hi lo p, 1 <= nr <= 127 -> is_byte peer -> is_byte hi -> is_byte lo -> owner t = None -> po_open p = 0 ->
  exists t', tstep t (OMsg nr (open_msg peer 0 hi lo) p) = Some (t', (0, [TListen (0x602 + 4 * (nr - 1)); open_ack nr peer (hi * 256 + lo)])) /\
  owner t' = Some (nr, peer).
Proof.
  intros t nr peer hi lo p R P Hh Hl O Po. unfold owner in O. destruct (tn_state t) eqn:TS; try discriminate.
  cbn [tstep]. unfold open_msg. rewrite (rx_cons _ _ _ _ _ _ _ _ _ _ _ _ eq_refl). cbv zeta. rewrite TS, Po. change (0 =? ERR_OK) with true.
  change (1 =? 10) with false. change (1 =? 9) with false. change (1 =? 1) with true. change (0 =? 0) with true. cbv iota.
  unfold is_byte in *. eexists. split.
  - rewrite ack_eq; [|cbn [tn_delay]; rewrite shiftl_mul; change (2 ^ 8) with 256; lia|exact P|exact R].
    cbn [tn_delay]. rewrite shiftl_mul. change (2 ^ 8) with 256. replace (u16 ((nr + 65535) * 4 + 1538)) with (0x602 + 4 * (nr - 1)) by (unfold u16; lia). reflexivity.
  - reflexivity.
Qed.
Print Assumptions C48_granted_partial.
(** C48: while it has an owner, every open request is denied and changes nothing. *)
Theorem C48_busy_partial : forall t nr peer ctype hi lo p, 1 <= nr <= 127 -> is_byte peer -> owner t <> None ->
  tstep t (OMsg nr (open_msg peer ctype hi lo) p) = Some (t, (0, [deny nr peer 0x5001])).
Proof.
  intros t nr peer ctype hi lo p R P O. cbn [tstep]. unfold open_msg. rewrite (rx_cons _ _ _ _ _ _ _ _ _ _ _ _ eq_refl). cbv zeta.
  change (1 =? 10) with false. change (1 =? 9) with false. change (1 =? 1) with true. cbv iota. unfold owner in O.
  destruct (tn_state t); [exfalso; apply O; reflexivity| |]; rewrite deny_eq by (try exact P; try exact R; reflexivity); reflexivity.
Qed.
Print Assumptions C48_busy_partial.
(** C48: the owner stays the same until a close message is accepted by the port, or the owner acknowledges a shutdown. *)
Theorem C48_owner_partial : forall t o t' e obs ow, top_ok o -> tstep t o = Some (t', (e, obs)) -> owner t = Some ow ->
  owner t' = Some ow \/
  owner t' = None /\ exists nr d p, o = OMsg nr d p /\ (nth 0 d 0 = 2 /\ po_free p = 0 \/ nth 0 d 0 = 4 /\ ow = (nr, nth 1 d 0)).
Proof.
  intros t o t' e obs ow K H O. destruct o as [nr d p|lk dat irqs|lk now thr|hw| | |];
    try (left; destruct (other_frame _ _ _ _ _ H ltac:(discriminate)) as [A _]; congruence).
  cbn [tstep] in H. destruct (tunnel_rx t nr d p) as [[[t1 e1] o1]|] eqn:Q; [|discriminate]. injection H as <- <- <-.
  destruct K as (_ & L & _). destruct (rx_owner _ _ _ _ _ _ _ L Q ltac:(congruence)) as [A|[A [B|[B C]]]].
  - left. congruence.
  - right. split; [exact A|]. exists nr, d, p. auto.
  - right. split; [exact A|]. exists nr, d, p. split; [reflexivity|]. right. split; [exact B|]. congruence.
Qed.
Print Assumptions C48_owner_partial.
(** C48: an open request that the port refuses is denied with the port's error and leaves the tunnel free. *)
Theorem C48_port_refuses_partial : forall t nr peer ctype hi lo p, 1 <= nr <= 127 -> is_byte peer -> owner t = None -> 0 < po_open p < 65536 ->
  tstep t (OMsg nr (open_msg peer ctype hi lo) p) = Some (t, (po_open p, [deny nr peer (po_open p)])).
Proof.
  intros t nr peer ctype hi lo p R P O Po. cbn [tstep]. unfold open_msg. rewrite (rx_cons _ _ _ _ _ _ _ _ _ _ _ _ eq_refl). cbv zeta.
  change (1 =? 10) with false. change (1 =? 9) with false. change (1 =? 1) with true. cbv iota. unfold owner in O.
  destruct (tn_state t); [|discriminate|discriminate]. change ERR_OK with 0. destruct (N.eqb_spec (po_open p) 0); [lia|].
  rewrite deny_eq by (try exact P; try exact R; lia). reflexivity.
Qed.
Print Assumptions C48_port_refuses_partial.
(** C48: a close that the port accepts frees the tunnel, and the next peer is served. *)
Theorem C48_close_partial : forall t nr peer p, 1 <= nr <= 127 -> is_byte peer -> po_free p = 0 ->
  exists t', tstep t (OMsg nr (close_msg peer) p) = Some (t', (0, [TCtrl (tctl nr) [4; peer; 0; 0; 0; 0; 0; 0]])) /\ owner t' = None.
Proof.
  intros t nr peer p R P Po. cbn [tstep]. unfold close_msg. rewrite (rx_cons _ _ _ _ _ _ _ _ _ _ _ _ eq_refl). cbv zeta. rewrite Po.
  change (2 =? 10) with false. change (2 =? 9) with false. change (2 =? 1) with false. change (2 =? 2) with true. change (0 =? ERR_OK) with true. cbv iota.
  eexists. split.
  - unfold respond, resp_bytes. rewrite ctrl_ident by exact R. unfold is_byte in P. unfold u8. rewrite (N.mod_small peer 256) by lia. reflexivity.
  - reflexivity.
Qed.
Print Assumptions C48_close_partial.
(** C48: the port is told to stop or resume only while the tunnel is open, by a message that carries the owner's number; only a
    port reset resumes without that. *)
Theorem C48_flow_control_partial : forall t o t' e obs, top_ok o -> tstep t o = Some (t', (e, obs)) -> In TPortXoff obs \/ In TPortXon obs ->
  t' = t /\ tn_state t = TActive /\ exists nr d p, o = OMsg nr d p /\
  (nth 0 d 0 = 8 /\ po_clear p = 0 /\ obs = [TPortXon] \/ nth 0 d 0 = 9 /\ nth 1 d 0 = tn_prim t /\ obs = [TPortXoff] \/ nth 0 d 0 = 10 /\ nth 1 d 0 = tn_prim t /\ obs = [TPortXon]).
Proof.
  intros t o t' e obs K H X. destruct o as [nr d p|lk dat irqs|lk now thr|hw| | |];
    try (exfalso; destruct (other_port _ _ _ _ _ H ltac:(discriminate)) as [N1 N2]; tauto).
  cbn [tstep] in H. destruct (tunnel_rx t nr d p) as [[[t1 e1] o1]|] eqn:Q; [|discriminate]. injection H as <- <- <-.
  destruct K as (_ & L & _). destruct (rx_flow _ _ _ _ _ _ _ L Q X) as (A & B & C). split; [exact A|]. split; [exact B|]. exists nr, d, p. auto.
Qed.
Print Assumptions C48_flow_control_partial.
Example C48_ex : exists t outs, runs tstep tun_zero (ex_open ++ [OMsg 6 (open_msg 21 0 0 0) port_ok; OShutdown; OMsg 5 [4; 20; 0; 0; 0; 0; 0; 0] port_ok; OMsg 6 (open_msg 21 0 0 0) (POuts 0x5099 0 0); OMsg 6 (open_msg 21 0 0 0) port_ok]) = Some (t, outs) /\
  owner t = Some (6, 21) /\ map snd outs = [[TListen 0x612; open_ack 5 20 258]; []; []; [deny 6 21 0x5001]; [TCtrl 0x611 [2; 20; 0; 0; 0; 0; 0; 0]]; []; [deny 6 21 0x5099]; [TListen 0x616; open_ack 6 21 0]].
Proof. eexists _, _. split; [vm_compute; reflexivity|]. split; vm_compute; reflexivity. Qed.

(** C48, refuted for other connection types: the request is denied, yet the peer becomes the owner, and all later requests
    of any peer are denied. *)
(** C48, messages of the node itself: while it is open the application can ask the peer to pause, to go on and to close; each message goes
    to the owner and to nobody else.  A closing tunnel keeps its owner until the owner answers: an acknowledge frees it, a deny makes it active
    again.  Without an open tunnel nothing is sent. *)
Theorem C48_own_messages_partial : forall t nr peer, 1 <= nr <= 127 -> is_byte peer -> owner t = Some (nr, peer) -> tn_state t = TActive ->
  tstep t OXon = Some (t, (0, [TCtrl (tctl nr) [10; peer; 0; 0; 0; 0; 0; 0]])) /\
  tstep t OXoff = Some (t, (0, [TCtrl (tctl nr) [9; peer; 0; 0; 0; 0; 0; 0]])) /\
  exists t', tstep t OShutdown = Some (t', (0, [TCtrl (tctl nr) [2; peer; 0; 0; 0; 0; 0; 0]])) /\ owner t' = Some (nr, peer) /\ tn_state t' <> TActive /\
    (forall p, exists t2, tstep t' (OMsg nr [4; peer; 0; 0; 0; 0; 0; 0] p) = Some (t2, (po_free p, [])) /\ owner t2 = None) /\
    (forall p, tstep t' (OMsg nr [6; peer; 0; 0; 0; 0; 0; 0] p) = Some (t, (0, []))).
Proof.
  intros [st pr se ow de ct td tu q] nr peer R P O A. cbn [tn_state] in A. subst st. unfold owner in O. cbn [tn_state tn_own tn_prim] in O. injection O as -> ->.
  assert (U : u8 peer = peer) by (unfold is_byte in P; unfold u8; lia).
  cbn [tstep]. unfold xonoff, shutdown, respond, resp_bytes. cbn [tn_state tn_own tn_prim]. rewrite !ctrl_ident by exact R. rewrite !U.
  split; [reflexivity|]. split; [reflexivity|]. eexists. split; [reflexivity|]. split; [reflexivity|]. split; [discriminate|]. unfold set_tstate.
  cbn [tn_prim tn_sec tn_own tn_delay tn_ctype tx_data tx_used tn_q]. split; intro p.
  - unfold tunnel_rx. cbn [nth_error]. cbn [tn_state tn_own tn_prim tn_sec]. cbv zeta. change (4 =? 10) with false. change (4 =? 9) with false. change (4 =? 1) with false.
    change (4 =? 2) with false. change (4 =? 8) with false. change (4 =? 4) with true. cbv iota. rewrite !N.eqb_refl. cbn [andb]. eexists. split; reflexivity.
  - unfold tunnel_rx. cbn [nth_error]. cbn [tn_state tn_own tn_prim tn_sec]. cbv zeta. change (6 =? 10) with false. change (6 =? 9) with false. change (6 =? 1) with false.
    change (6 =? 2) with false. change (6 =? 8) with false. change (6 =? 4) with false. change (6 =? 6) with true. cbv iota. rewrite !N.eqb_refl. cbn [andb]. reflexivity.
Qed.
Print Assumptions C48_own_messages_partial.
Theorem C48_not_open_partial : forall t o, tn_state t <> TActive -> o = OXon \/ o = OXoff \/ o = OShutdown -> exists e, tstep t o = Some (t, (e, [])) /\ e <> 0.
Proof. intros t o A [->|[->| ->]]; cbn [tstep]; unfold xonoff, shutdown; destruct (tn_state t); try congruence; eexists; (split; [reflexivity|discriminate]). Qed.
Print Assumptions C48_not_open_partial.
Example C48_own_messages_case : exists t outs, runs tstep tun_zero [OMsg 5 (open_msg 20 0 0 0) port_ok] = Some (t, outs) /\ owner t = Some (5, 20) /\ tn_state t = TActive.
Proof. eexists _, _. split; [vm_compute; reflexivity|split; reflexivity]. Qed.

Theorem C48_denied_refuted : forall t nr peer ctype hi lo p, 1 <= nr <= 127 -> is_byte peer -> owner t = None -> po_open p = 0 -> ctype <> 0 ->
  exists t', tstep t (OMsg nr (open_msg peer ctype hi lo) p) = Some (t', (0, [deny nr peer 0x506D])) /\ owner t' = Some (nr, peer) /\
  forall nr2 peer2 ct2 hi2 lo2 p2, 1 <= nr2 <= 127 -> is_byte peer2 ->
    tstep t' (OMsg nr2 (open_msg peer2 ct2 hi2 lo2) p2) = Some (t', (0, [deny nr2 peer2 0x5001])).
Proof.
  intros t nr peer ctype hi lo p R P O Po C. pose proof O as O2. unfold owner in O2. destruct (tn_state t) eqn:TS; try discriminate.
  eexists. split; [|split; [|intros; apply C48_busy_partial; auto]].
  - cbn [tstep]. unfold open_msg. rewrite (rx_cons _ _ _ _ _ _ _ _ _ _ _ _ eq_refl). cbv zeta. rewrite TS, Po. change (0 =? ERR_OK) with true.
    change (1 =? 10) with false. change (1 =? 9) with false. change (1 =? 1) with true. cbv iota. destruct (N.eqb_spec ctype 0); [contradiction|].
    rewrite deny_eq by (try exact P; try exact R; reflexivity). reflexivity.
  - reflexivity.
  - cbn. discriminate.
Qed.
Print Assumptions C48_denied_refuted.
(** C48, finding: the close message of any peer, for any module, frees the tunnel of the owner. *)
Theorem C48_foreign_close_refuted : forall t ow nr peer p, owner t = Some ow -> ow <> (nr, peer) -> 1 <= nr <= 127 -> is_byte peer -> po_free p = 0 ->
  exists t' obs, tstep t (OMsg nr (close_msg peer) p) = Some (t', (0, obs)) /\ owner t' = None.
Proof. intros t ow nr peer p _ _ R P Po. destruct (C48_close_partial t nr peer p R P Po) as (t' & A & B). eauto. Qed.
Print Assumptions C48_foreign_close_refuted.

(** C49: in every history, the data messages given to the controller are a prefix of those queued, the payloads of the
    queued ones are a prefix of the bytes accepted by putc, at most seven bytes are held back, at most four messages wait;
    putc queues full messages, the flush function partly filled ones. *)
Theorem C49_order : forall ops t outs, Forall top_ok ops -> runs tstep tun_zero ops = Some (t, outs) ->
  exists waiting held, queued (obs_of outs) = sent (obs_of outs) ++ waiting /\ (length waiting <= 4)%nat /\
  bytes_put ops outs = stream (queued (obs_of outs)) ++ held /\ (length held <= 7)%nat /\ all_frames_ok ops outs.
Proof.
  intros ops t outs Ho H. destruct (truns _ _ _ _ _ tI_zero Ho H) as (l & I & A & B & C). exists l, (pend t).
  split; [exact A|]. destruct I as (R & L & U & _). split; [apply (drel_len _ _ R)|]. split; [exact B|]. split; [|exact C].
  unfold pend. rewrite firstn_length. lia.
Qed.
Print Assumptions C49_order.
(** C49: nothing is lost: as long as the tunnel is open, a flush after the controller took the waiting messages, and one more
    message taken, deliver all bytes. *)
Theorem C49_delivered : forall ops t outs now thr, Forall top_ok ops -> runs tstep tun_zero ops = Some (t, outs) ->
  tn_state t = TActive -> 7 + thr < now -> now < 2 ^ 32 ->
  exists t2 outs2, runs tstep t [OHandle 0; OHandle 0; OHandle 0; OHandle 0; OFlush 0 now thr; OHandle 0] = Some (t2, outs2) /\
  stream (sent (obs_of (outs ++ outs2))) = bytes_put ops outs.
Proof.
  intros ops t outs now thr Ho H TA N1 N2. destruct (truns _ _ _ _ _ tI_zero Ho H) as (l & I & A & B & C).
  assert (DR : forall n t l, tI t l -> tn_state t = TActive -> (length l <= n)%nat -> exists t' outs', runs tstep t (repeat (OHandle 0) n) = Some (t', outs') /\
    tI t' [] /\ tn_state t' = TActive /\ sent (obs_of outs') = l /\ pend t' = pend t).
  { clear. induction n as [|n IH]; intros t l I TA L.
    - destruct l; [|cbn in L; lia]. exists t, []. cbn. auto.
    - destruct I as (R & LL & U & O). destruct (handle_cases t l 0 R) as (q & e & o & l1 & A & B & C & D & F & _).
      assert (I1 : tI (set_q t q) l1) by (split; [exact B|]; auto).
      destruct (IH (set_q t q) l1 I1 TA) as (t2 & o2 & E & G & HH & J & K).
      { destruct l as [|f l]; [destruct l1; [cbn; lia|destruct (sent o); discriminate]|]. specialize (F eq_refl ltac:(discriminate)). cbn in *. lia. }
      cbn [repeat runs tstep]. rewrite A, E. exists t2. eexists. split; [reflexivity|]. split; [exact G|]. split; [exact HH|]. split; [|exact K].
      rewrite obs_cons, sent_app, J. symmetry. exact C. }
  assert (L4 : (length l <= 4)%nat) by (destruct I as (R & _); apply (drel_len _ _ R)).
  destruct (DR 4%nat t l I TA L4) as (t1 & o1 & E1 & I1 & TA1 & S1 & P1).
  assert (X : exists t2 o2 l2, runs tstep t1 [OFlush 0 now thr] = Some (t2, o2) /\ tI t2 l2 /\ tn_state t2 = TActive /\ sent (obs_of o2) = [] /\ stream l2 = pend t1 /\ (length l2 <= 1)%nat).
  { destruct I1 as (R & LL & U & O). assert (OW : 1 <= tn_own t1 <= 127) by (apply O; congruence).
    cbn [runs tstep]. unfold flush. change (0 + 1 =? 1)%nat with true. cbv iota. rewrite TA1.
    destruct (Nat.eq_dec (tx_used t1) 0) as [Z|Z].
    - rewrite Z. change (0 <? 0)%nat with false. cbn [andb]. exists t1. eexists. exists []. split; [reflexivity|]. split; [split; auto|]. split; [exact TA1|].
      split; [reflexivity|]. split; [unfold pend; rewrite Z; reflexivity|cbn; lia].
    - destruct (Nat.ltb_spec 0 (tx_used t1)); [|lia]. cbn [andb].
      assert (U2 : u32 (N.of_nat (tx_used t1) + thr) = N.of_nat (tx_used t1) + thr). { change (2 ^ 32) with 4294967296 in N2. unfold u32. lia. }
      rewrite U2. destruct (N.ltb_spec (N.of_nat (tx_used t1) + thr) now); [|lia].
      destruct (put_cases t1 [] R LL ltac:(lia) OW) as [[? _]|(q & _ & P & R')]; [discriminate|]. rewrite P.
      change (ERR_OK =? ERR_OK) with true. cbv iota. eexists. eexists. exists [cur t1]. split; [reflexivity|].
      split; [split; [exact R'|]; split; [exact LL|]; split; [cbn; lia|]; intros _; exact OW|]. split; [exact TA1|]. split; [reflexivity|].
      split; [cbn; apply app_nil_r|cbn; lia]. }
  destruct X as (t2 & o2 & l2 & E2 & I2 & TA2 & S2 & P2 & L2).
  destruct (DR 1%nat t2 l2 I2 TA2 L2) as (t3 & o3 & E3 & I3 & TA3 & S3 & P3).
  exists t3, (o1 ++ o2 ++ o3). split.
  - change [OHandle 0; OHandle 0; OHandle 0; OHandle 0; OFlush 0 now thr; OHandle 0] with (repeat (OHandle 0) 4 ++ [OFlush 0 now thr] ++ repeat (OHandle 0) 1).
    eapply runs_app; [exact E1|]. eapply runs_app; [exact E2|exact E3].
  - unfold obs_of in *. rewrite !flat_map_app, !sent_app, S1, S2, S3. cbn [app]. rewrite !app_assoc, <- A. rewrite stream_app, P2, P1.
    cbn [app] in B. symmetry. exact B.
Qed.
Print Assumptions C49_delivered.
Example C49_ex : exists t outs, runs tstep tun_zero (ex_open ++ map (fun b => OPutc 0 b []) [67; 68; 69; 70; 71; 72; 73] ++ [OPutc 1 99 []; OFlush 0 1000 50; OHandle 0x5001; OHandle 0]) = Some (t, outs) /\
  Forall top_ok (ex_open ++ map (fun b => OPutc 0 b []) [67; 68; 69; 70; 71; 72; 73] ++ [OPutc 1 99 []; OFlush 0 1000 50; OHandle 0x5001; OHandle 0]) /\ tn_state t = TActive /\
  bytes_put (ex_open ++ map (fun b => OPutc 0 b []) [67; 68; 69; 70; 71; 72; 73] ++ [OPutc 1 99 []; OFlush 0 1000 50; OHandle 0x5001; OHandle 0]) outs = [65; 66; 67; 68; 69; 70; 71; 72; 73] /\
  queued (obs_of outs) = [(0x613, 8, [65; 66; 67; 68; 69; 70; 71; 72]); (0x613, 1, [73])] /\ sent (obs_of outs) = [(0x613, 8, [65; 66; 67; 68; 69; 70; 71; 72])].
Proof.
  eexists _, _. split; [vm_compute; reflexivity|]. split; [cbn [app map ex_open]; okops|]. split; [reflexivity|]. split; [reflexivity|]. split; reflexivity.
Qed.

(** C50, refuted: a byte put into the tunnel of the first peer is sent to the second one. *)
Theorem C50_refuted : forall x y p1 p2, exists t1 o1 t2 o2,
  runs tstep tun_zero [OMsg 5 (open_msg p1 0 0 0) port_ok; OPutc 0 x []; OMsg 5 (close_msg p1) port_ok] = Some (t1, o1) /\ owner t1 = None /\
  runs tstep t1 (OMsg 9 (open_msg p2 0 0 0) port_ok :: repeat (OPutc 0 y []) 7 ++ [OHandle 0]) = Some (t2, o2) /\
  sent (obs_of o2) = [(id_of 9, 8, x :: repeat y 7)].
Proof.
  intros x y p1 p2. eexists _, _, _, _. split; [vm_compute; reflexivity|]. split; [reflexivity|]. split; [vm_compute; reflexivity|]. reflexivity.
Qed.
Print Assumptions C50_refuted.
(** C50, proved for sessions that start when all bytes of the earlier ones have been sent; missing: sessions that start with
    bytes held back, which the code does not discard. *)
Theorem C50_clean_partial : forall ops1 t1 o1 ops2 t2 o2, Forall top_ok ops1 -> Forall top_ok ops2 ->
  runs tstep tun_zero ops1 = Some (t1, o1) -> stream (sent (obs_of o1)) = bytes_put ops1 o1 ->
  runs tstep t1 ops2 = Some (t2, o2) -> exists later, bytes_put ops2 o2 = stream (sent (obs_of o2)) ++ later.
Proof.
  intros ops1 t1 o1 ops2 t2 o2 Ho1 Ho2 H1 HS H2. destruct (truns _ _ _ _ _ tI_zero Ho1 H1) as (l & I & A & B & _).
  cbn [app] in A, B. change (pend tun_zero) with (@nil byte) in B. cbn [app] in B. rewrite A, stream_app, <- HS in B.
  assert (Z : stream l ++ pend t1 = []). { apply (app_inv_head (stream (sent (obs_of o1)))). rewrite app_nil_r, app_assoc. symmetry. exact B. }
  apply app_eq_nil in Z. destruct Z as [Z1 Z2].
  destruct (truns _ _ _ _ _ I Ho2 H2) as (l2 & I2 & A2 & B2 & _). rewrite Z2 in B2. cbn [app] in B2.
  exists (stream l2 ++ pend t2). rewrite B2, app_assoc. f_equal. rewrite <- stream_app, <- A2, stream_app, Z1. reflexivity.
Qed.
Print Assumptions C50_clean_partial.
Example C50_clean_ex : exists t1 o1, runs tstep tun_zero (ex_open ++ [OFlush 0 1000 50; OHandle 0; OMsg 5 (close_msg 20) port_ok]) = Some (t1, o1) /\
  stream (sent (obs_of o1)) = [65; 66] /\ exists t2 o2, runs tstep t1 [OMsg 9 (open_msg 21 0 0 0) port_ok; OPutc 0 67 []; OFlush 0 1000 50; OHandle 0] = Some (t2, o2) /\
  stream (sent (obs_of o2)) = [67].
Proof. eexists _, _. split; [vm_compute; reflexivity|]. split; [reflexivity|]. eexists _, _. split; [vm_compute; reflexivity|reflexivity]. Qed.

(** C59, refuted: after any history whose bytes have all been sent, a byte is sent in a message of its own by a flush at the
    very time it was put, whatever the delay. *)
Theorem C59_hold_refuted : forall ops t0 outs0 x now thr, Forall top_ok ops -> runs tstep tun_zero ops = Some (t0, outs0) ->
  tn_state t0 = TActive -> stream (sent (obs_of outs0)) = bytes_put ops outs0 -> 1 + thr < now -> now < 2 ^ 32 ->
  exists t' outs, runs tstep t0 [OPutc 0 x []; OFlush 0 now thr] = Some (t', outs) /\ queued (obs_of outs) = [(id_of (tn_own t0), 1, [x])].
Proof.
  intros ops t outs0 x now thr Ho H0 TA HS0 N1 N2. destruct (truns _ _ _ _ _ tI_zero Ho H0) as (l & I & A & B & FR).
  cbn [app] in A, B. change (pend tun_zero) with (@nil byte) in B. cbn [app] in B. rewrite A, stream_app, <- HS0 in B.
  assert (Z : stream l ++ pend t = []). { apply (app_inv_head (stream (sent (obs_of outs0)))). rewrite app_nil_r, app_assoc. symmetry. exact B. }
  apply app_eq_nil in Z. destruct Z as [Z1 Z2].
  assert (LN : l = []).
  { assert (NE : forall os rs, all_frames_ok os rs -> length os = length rs -> Forall (fun f => payload f <> []) (queued (obs_of rs))).
    { clear. induction os as [|o os IH]; intros [|[e ob] rs] F L; try discriminate; [constructor|]. destruct F as [F1 F2]. rewrite obs_cons, queued_app.
      apply Forall_app. split; [|apply IH; [exact F2|cbn in L; lia] ].
      destruct o; cbn [frames_ok] in F1; try (rewrite F1; constructor).
      - destruct F1 as [->|(f & -> & nr & _ & _ & _ & Q)]; constructor; [|constructor]. intro X. rewrite X in Q. discriminate.
      - destruct F1 as [->|(f & n & -> & Hn & nr & _ & _ & _ & Q)]; constructor; [|constructor]. intro X. rewrite X in Q. cbn in Q. lia. }
    assert (RL : forall os s s1 rs, runs tstep s os = Some (s1, rs) -> length os = length rs).
    { clear. induction os as [|o os IH]; intros s s1 rs H; cbn [runs] in H; [injection H as _ <-; reflexivity|].
      destruct (tstep s o) as [[s2 r]|]; [|discriminate]. destruct (runs tstep s2 os) as [[s3 rr]|] eqn:E; [|discriminate]. injection H as _ <-. cbn. f_equal. eapply IH. exact E. }
    specialize (NE ops outs0 FR (RL _ _ _ _ H0)). rewrite A in NE. apply Forall_app in NE. destruct NE as [_ NE]. destruct l as [|f l]; [reflexivity|].
    exfalso. inversion NE; subst. unfold stream in Z1. cbn [flat_map] in Z1. apply app_eq_nil in Z1. destruct Z1 as [Z1 _]. contradiction. }
  subst l. clear A B FR Z1. destruct I as (R & LL & U & O). assert (U0 : tx_used t = 0%nat).
  { unfold pend in Z2. destruct (tx_used t) eqn:E; [reflexivity|]. destruct (tx_data t); [discriminate LL|discriminate Z2]. } assert (OW : 1 <= tn_own t <= 127) by (apply O; congruence).
  cbn [runs tstep]. unfold putc. change (0 + 1 =? 1)%nat with true. cbv iota. rewrite TA.
  destruct (upd_some _ (tx_data t) (tx_used t) x ltac:(lia)) as [d UD]. rewrite UD. pose proof (upd_length _ _ _ _ _ UD) as UL. pose proof (firstn_upd _ _ _ _ UD) as UF.
  cbv zeta. cbn [set_tx tx_used]. rewrite U0 in *. change (0 + 1)%nat with 1%nat in *. change (1 =? 8)%nat with false. cbv iota.
  unfold flush. change (0 + 1 =? 1)%nat with true. cbn [set_tx tn_state tx_used tx_data tn_own tn_q]. rewrite TA. change (0 <? 1)%nat with true. cbn [andb].
  change (N.of_nat 1) with 1. assert (U2 : u32 (1 + thr) = 1 + thr). { change (2 ^ 32) with 4294967296 in N2. unfold u32. lia. }
  rewrite U2. destruct (N.ltb_spec (1 + thr) now); [|lia]. destruct (drel_len _ _ R) as [H4 HS].
  set (t1 := set_tx t d 1).
  destruct (put_cases t1 [] R ltac:(cbn; lia) ltac:(cbn; lia) OW) as [[X _]|(q & _ & P & R')]; [discriminate|].
  unfold t1 in P. cbn [set_tx tn_state tx_used tx_data tn_own tn_q] in P. change (N.of_nat 1) with 1 in P. rewrite P.
  change (ERR_OK =? ERR_OK) with true. cbv iota. eexists _, _. split; [reflexivity|]. cbn [obs_of flat_map snd app queued].
  rewrite ident_async by lia. rewrite UF. reflexivity.
Qed.
Print Assumptions C59_hold_refuted.
Example C59_ex : exists t outs, runs tstep tun_zero [OMsg 5 (open_msg 20 0 0 0) port_ok; OPutc 0 65 []; OFlush 0 60000 50000] = Some (t, outs) /\
  queued (obs_of outs) = [(0x613, 1, [65])].
Proof. eexists _, _. split; [vm_compute; reflexivity|reflexivity]. Qed.
(** C59: while the tick counter has not passed the delay (after power-on, and again after each wrap) nothing is flushed, no
    matter how long ago the bytes were put. *)
Theorem C59_never_flushed_refuted : forall ops t outs now thr, Forall top_ok ops -> runs tstep tun_zero ops = Some (t, outs) -> now <= thr -> thr < 2 ^ 31 ->
  exists e, tstep t (OFlush 0 now thr) = Some (t, (e, [])).
Proof.
  intros ops t outs now thr Ho H N1 N2. destruct (truns _ _ _ _ _ tI_zero Ho H) as (l & (_ & _ & U & _) & _). change (2 ^ 31) with 2147483648 in N2. cbn [tstep]. unfold flush. change (0 + 1 =? 1)%nat with true. cbv iota.
  destruct (tn_state t); eauto. assert (U2 : u32 (N.of_nat (tx_used t) + thr) = N.of_nat (tx_used t) + thr) by (unfold u32; lia). rewrite U2.
  destruct (N.ltb_spec (N.of_nat (tx_used t) + thr) now); [lia|]. rewrite Bool.andb_false_r. eauto.
Qed.
Print Assumptions C59_never_flushed_refuted.

(** C59, the part that holds: once the tick counter has passed the delay and 7 ticks more, a flush of an open tunnel queues exactly the bytes held back, as
    one message, unless four messages are waiting for the controller; then it reports an error and keeps them. *)
Theorem C59_flush_partial : forall ops t outs now thr rest, Forall top_ok ops -> runs tstep tun_zero ops = Some (t, outs) ->
  tn_state t = TActive -> 7 + thr < now -> now < 2 ^ 32 -> bytes_put ops outs = stream (queued (obs_of outs)) ++ rest -> rest <> [] ->
  exists t' e obs, tstep t (OFlush 0 now thr) = Some (t', (e, obs)) /\
  ((length (queued (obs_of outs)) < length (sent (obs_of outs)) + 4)%nat -> e = 0 /\ queued obs = [(id_of (tn_own t), N.of_nat (length rest), rest)] /\ tx_used t' = 0%nat) /\
  ((length (queued (obs_of outs)) = length (sent (obs_of outs)) + 4)%nat -> e <> 0 /\ obs = [] /\ t' = t).
Proof.
  intros ops t outs now thr rest Ho H TA N1 N2 HB HN. destruct (truns _ _ _ _ _ tI_zero Ho H) as (l & (R & LL & U & O) & A & B & _).
  cbn [app] in A, B. change (pend tun_zero) with (@nil byte) in B. cbn [app] in B. rewrite B in HB. apply app_inv_head in HB. subst rest.
  assert (OW : 1 <= tn_own t <= 127) by (apply O; congruence). assert (Z : tx_used t <> 0%nat). { intro Z. apply HN. unfold pend. rewrite Z. reflexivity. }
  cbn [tstep]. unfold flush. change (0 + 1 =? 1)%nat with true. cbv iota. rewrite TA. destruct (Nat.ltb_spec 0 (tx_used t)); [|lia]. cbn [andb].
  assert (U2 : u32 (N.of_nat (tx_used t) + thr) = N.of_nat (tx_used t) + thr). { change (2 ^ 32) with 4294967296 in N2. unfold u32. lia. }
  rewrite U2. destruct (N.ltb_spec (N.of_nat (tx_used t) + thr) now); [|lia]. rewrite A, app_length.
  destruct (put_cases t l R LL ltac:(lia) OW) as [[L P]|(q & L & P & R')]; rewrite P.
  - change (E_DATA_TX_OVERFLOW =? ERR_OK) with false. cbv iota. eexists _, _, _. split; [reflexivity|]. split; [lia|]. intros _. split; [discriminate|]. split; [reflexivity|]. destruct t; reflexivity.
  - change (ERR_OK =? ERR_OK) with true. cbv iota. eexists _, _, _. split; [reflexivity|]. split; [|lia]. intros _. split; [reflexivity|]. split; [|reflexivity].
    cbn [queued flat_map app]. rewrite ident_async by lia. unfold pend. rewrite firstn_length, Nat.min_l by lia. reflexivity.
Qed.
Print Assumptions C59_flush_partial.
Example C59_flush_partial_case : exists t outs, runs tstep tun_zero ex_open = Some (t, outs) /\ Forall top_ok ex_open /\ tn_state t = TActive /\ bytes_put ex_open outs = stream (queued (obs_of outs)) ++ [65; 66].
Proof. eexists _, _. split; [vm_compute; reflexivity|]. split; [unfold ex_open; okops|]. split; reflexivity. Qed.

(** C60: putc returns when the controller takes one waiting message during the call. *)
Lemma loop_returns irqs : forall t l, drel QLEN (tn_q t) l -> length (tx_data t) = 8%nat -> (tx_used t <= 8)%nat -> 1 <= tn_own t <= 127 ->
  (length l < 4)%nat \/ In 0 irqs -> exists r, enqueue_loop t irqs = Some r.
Proof.
  induction irqs as [|hw r IH]; intros t l R L U O X; cbn [enqueue_loop];
    destruct (put_cases t l R L U O) as [[E P]|(q & E & P & R')]; rewrite P.
  - exfalso. destruct X as [X|[]]. lia.
  - change (ERR_OK =? ERR_OK) with true. cbv iota. eauto.
  - change (E_DATA_TX_OVERFLOW =? ERR_OK) with false. cbv iota. assert (S0 : set_q t (tn_q t) = t) by (destruct t; reflexivity). rewrite S0.
    destruct (handle_cases t l hw R) as (q1 & e & o1 & l1 & A & B & C & D & F & G). rewrite A.
    destruct (IH (set_q t q1) l1 B L U O) as [[t2 o2] Q].
    + destruct (N.eq_dec hw 0) as [Z|Z].
      * left. destruct l; [discriminate|]. specialize (F Z ltac:(discriminate)). lia.
      * right. destruct X as [X|[X|X]]; [lia|congruence|exact X].
    + rewrite Q. eauto.
  - change (ERR_OK =? ERR_OK) with true. cbv iota. eauto.
Qed.
Theorem C60_returns_partial : forall ops t outs dat irqs lock, Forall top_ok ops -> runs tstep tun_zero ops = Some (t, outs) -> is_byte dat -> In 0 irqs ->
  exists t' e obs, tstep t (OPutc lock dat irqs) = Some (t', (e, obs)) /\ (lock = 0%nat -> tn_state t = TActive -> e = 0).
Proof.
  intros ops t outs dat irqs lock Ho H B Z. destruct (truns _ _ _ _ _ tI_zero Ho H) as (l & (R & LL & U & O) & _).
  cbn [tstep]. unfold putc. destruct (lock + 1 =? 1)%nat eqn:EL.
  2:{ eexists _, _, _. split; [reflexivity|]. intros ->. discriminate. }
  destruct (tn_state t) eqn:TS.
  1,3: eexists _, _, _; split; [reflexivity|]; discriminate.
  destruct (upd_some _ (tx_data t) (tx_used t) dat ltac:(lia)) as [d UD]. rewrite UD. pose proof (upd_length _ _ _ _ _ UD) as UL. cbv zeta. cbn [set_tx tx_used].
  destruct (tx_used t + 1 =? 8)%nat eqn:E8.
  - apply Nat.eqb_eq in E8. destruct (loop_returns irqs (set_tx t d (tx_used t + 1)) l R ltac:(cbn; lia) ltac:(cbn; lia) ltac:(apply O; discriminate) (or_intror Z)) as [[t2 o2] Q].
    cbn [set_tx] in Q. rewrite Q. eexists _, _, _. split; reflexivity.
  - eexists _, _, _. split; reflexivity.
Qed.
Print Assumptions C60_returns_partial.
(** the queue is full; the controller refuses twice and then takes a message *)
Example C60_case : exists t outs t' obs,
  Forall top_ok (OMsg 5 (open_msg 20 0 0 0) port_ok :: repeat (OPutc 0 65 []) 39) /\
  runs tstep tun_zero (OMsg 5 (open_msg 20 0 0 0) port_ok :: repeat (OPutc 0 65 []) 39) = Some (t, outs) /\
  tstep t (OPutc 0 66 []) = None /\ tstep t (OPutc 0 66 [7; 7; 0]) = Some (t', (0, obs)) /\ tn_state t = TActive.
Proof.
  eexists _, _, _, _. split; [cbn [repeat]; okops|]. split; [vm_compute; reflexivity|]. split; [vm_compute; reflexivity|].
  split; [vm_compute; reflexivity|reflexivity].
Qed.
(** C60, refuted: with four messages waiting and the controller refusing (or the handler not running: no refusals), the
    eighth byte of the next message never returns. *)
Theorem C60_refuted : forall hw, hw <> 0 -> exists t outs, 
  runs tstep tun_zero (OMsg 5 (open_msg 20 0 0 0) port_ok :: repeat (OPutc 0 65 []) 39) = Some (t, outs) /\ Forall (fun r => fst r = 0) outs /\
  forall n, tstep t (OPutc 0 65 (repeat hw n)) = None.
Proof.
  intros hw HW. eexists _, _. split; [vm_compute; reflexivity|]. split; [repeat constructor|]. intro n.
  cbn [tstep]. unfold putc. change (0 + 1 =? 1)%nat with true. cbn [tn_state tx_data tx_used upd]. cbv zeta. cbn [set_tx tx_used]. change (7 + 1 =? 8)%nat with true. cbv iota.
  match goal with |- match match enqueue_loop ?x _ with _ => _ end with _ => _ end = _ => set (t := x) end.
  assert (X : enqueue_loop t (repeat hw n) = None).
  { induction n as [|n IH]; [reflexivity|]. cbn [repeat enqueue_loop].
    assert (P : dtq_put QLEN (tn_q t) (tn_own t) DSlave (N.of_nat (tx_used t)) (tx_data t) = Some (tn_q t, E_DATA_TX_OVERFLOW)) by reflexivity. rewrite P.
    change (E_DATA_TX_OVERFLOW =? ERR_OK) with false. cbv iota. assert (S0 : set_q t (tn_q t) = t) by reflexivity. rewrite S0.
    assert (Hd : exists f, dtq_handle QLEN (tn_q t) hw = Some (tn_q t, (hw, Some f))).
    { unfold dtq_handle. change (0 <? dq_state (tn_q t))%nat with true. cbv iota. destruct (nth_error (dq_slots (tn_q t)) (dq_read (tn_q t))) as [sl|] eqn:NE; [|discriminate NE].
      change ERR_OK with 0. destruct (N.eqb_spec hw 0); [contradiction|]. eauto. }
    destruct Hd as [f Hd]. unfold tunnel_handle. rewrite Hd, S0, IH. destruct (hw =? ERR_OK); reflexivity. }
  rewrite X. reflexivity.
Qed.
Print Assumptions C60_refuted.
