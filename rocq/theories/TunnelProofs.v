(** Lemmas on the tunnel. *)
From Verif Require Import Words WordsFacts Bits ErrModel NodeModel LookModel AsyncModel AsyncSpec AsyncProofs TunnelModel TunnelSpec.

Definition tI (t : tun) (l : list dframe) : Prop :=
  drel QLEN (tn_q t) l /\ length (tx_data t) = 8%nat /\ (tx_used t < 8)%nat /\ (tn_state t <> TFree -> 1 <= tn_own t <= 127).
Definition put1 (o : top) (e : N) : list byte := match o with OPutc _ d _ => if e =? 0 then [d] else [] | _ => [] end.
Definition pend (t : tun) : list byte := firstn (tx_used t) (tx_data t).
Definition cur (t : tun) : dframe := (id_of (tn_own t), N.of_nat (tx_used t), pend t).

Lemma drel_len q l : drel QLEN q l -> (length l <= 4)%nat /\ dq_state q = length l.
Proof. intros (sl & R & M & _). pose proof (map_length frame_of sl). rewrite M in H. destruct R. unfold QLEN in *. lia. Qed.
Lemma ctrl_ident nr : 1 <= nr <= 127 -> ident_of CtrlTx nr 0 = tctl nr.
Proof. intros H. unfold ident_of, can_ident, tctl. cbn [class_base has_objects]. unfold u16. change (N.of_nat 0) with 0. lia. Qed.

Lemma put_cases t l : drel QLEN (tn_q t) l -> length (tx_data t) = 8%nat -> (tx_used t <= 8)%nat -> 1 <= tn_own t <= 127 ->
  (length l = 4%nat /\ dtq_put QLEN (tn_q t) (tn_own t) DSlave (N.of_nat (tx_used t)) (tx_data t) = Some (tn_q t, E_DATA_TX_OVERFLOW)) \/
  (exists q, (length l < 4)%nat /\ dtq_put QLEN (tn_q t) (tn_own t) DSlave (N.of_nat (tx_used t)) (tx_data t) = Some (q, ERR_OK) /\ drel QLEN q (l ++ [cur t])).
Proof.
  intros R L U O. destruct (drel_len _ _ R) as [HL HS].
  destruct (Nat.eq_dec (length l) 4) as [E|E].
  - left. split; [exact E|]. unfold dtq_put. rewrite HS, E. reflexivity.
  - right. assert (K : dop_ok (DPut (tn_own t) DSlave (N.of_nat (tx_used t)) (tx_data t))).
    { cbn. split; [lia|]. split; [discriminate|]. rewrite Nat2N.id. lia. }
    destruct (dsim QLEN ltac:(unfold QLEN; lia) _ _ _ R K) as (q & r & l' & A & B & C).
    cbn [dtq_step] in A. destruct (dtq_put QLEN _ _ _ _ _) as [[q1 e]|] eqn:P; [|discriminate]. injection A as <- <-.
    inversion B; subst; unfold QLEN in *; try lia.
    exists q1. split; [lia|]. split; [reflexivity|]. rewrite Nat2N.id in C. exact C.
Qed.
Lemma handle_cases t l hw : drel QLEN (tn_q t) l ->
  exists q e o l', tunnel_handle t hw = Some (set_q t q, e, o) /\ drel QLEN q l' /\ l = sent o ++ l' /\ queued o = [] /\
    (hw = 0 -> l <> [] -> length l = S (length l')) /\ (hw <> 0 -> q = tn_q t /\ o = []).
Proof.
  intro R. destruct (drel_len _ _ R) as [HL HS]. unfold tunnel_handle.
  destruct (dsim QLEN ltac:(unfold QLEN; lia) _ _ (DHandle hw) R I) as (q & r & l' & A & B & C).
  cbn [dtq_step] in A. destruct (dtq_handle QLEN (tn_q t) hw) as [[q1 [e f]]|] eqn:P; [|discriminate]. injection A as <- <-.
  inversion B; subst.
  - change (ERR_OK =? ERR_OK) with true. cbv iota. exists q1, ERR_OK. eexists. exists l'. split; [reflexivity|]. split; [exact C|].
    split; [reflexivity|]. split; [reflexivity|]. split; [reflexivity|]. intro X. exfalso. apply X. reflexivity.
  - destruct (e =? ERR_OK) eqn:X; [apply N.eqb_eq in X; contradiction|].
    exists q1, e, [], (f0 :: l0). split; [reflexivity|]. split; [exact C|]. split; [reflexivity|]. split; [reflexivity|].
    split; [intro; contradiction|]. intros _. split; [|reflexivity].
    unfold dtq_handle in P. rewrite HS in P. cbn [length] in P. change (0 <? S (length l0))%nat with true in P. cbv iota in P.
    destruct (nth_error _ _); [|discriminate]. rewrite X in P. injection P as <- _. reflexivity.
  - exists q1, ERR_OK, [], []. split; [reflexivity|]. split; [exact C|]. split; [reflexivity|]. split; [reflexivity|].
    split; [contradiction|]. intros _. split; [|reflexivity]. unfold dtq_handle in P. rewrite HS in P. cbn in P. injection P as P. symmetry. exact P.
Qed.
Lemma sent_app a b : sent (a ++ b) = sent a ++ sent b.
Proof. induction a as [|[] a IH]; cbn; rewrite ?IH; reflexivity. Qed.
Lemma queued_app a b : queued (a ++ b) = queued a ++ queued b.
Proof. induction a as [|[] a IH]; cbn; rewrite ?IH; reflexivity. Qed.
Lemma enq_loop irqs : forall t l t' o, drel QLEN (tn_q t) l -> length (tx_data t) = 8%nat -> (tx_used t <= 8)%nat -> 1 <= tn_own t <= 127 ->
  enqueue_loop t irqs = Some (t', o) ->
  exists q l', t' = set_q t q /\ drel QLEN q l' /\ l ++ [cur t] = sent o ++ l' /\ queued o = [cur t].
Proof.
  induction irqs as [|hw r IH]; intros t l t' o R L U O H; cbn [enqueue_loop] in H;
    destruct (put_cases t l R L U O) as [[E P]|(q & E & P & R')]; rewrite P in H.
  - change (E_DATA_TX_OVERFLOW =? ERR_OK) with false in H. discriminate.
  - change (ERR_OK =? ERR_OK) with true in H. cbv iota in H. rewrite ident_async in H by lia. injection H as <- <-.
    exists q, (l ++ [cur t]). auto.
  - change (E_DATA_TX_OVERFLOW =? ERR_OK) with false in H. cbv iota in H.
    assert (S0 : set_q t (tn_q t) = t) by (destruct t; reflexivity). rewrite S0 in H.
    destruct (handle_cases t l hw R) as (q1 & e & o1 & l1 & A & B & C & D & _). rewrite A in H.
    destruct (enqueue_loop (set_q t q1) r) as [[t2 o2]|] eqn:Q; [|discriminate]. injection H as <- <-.
    destruct (IH (set_q t q1) l1 _ _ B L U O Q) as (q2 & l2 & F & G & HH & J).
    exists q2, l2. split; [exact F|]. split; [exact G|]. rewrite sent_app, queued_app, D, J.
    split; [|reflexivity]. rewrite C, <- !app_assoc. f_equal. exact HH.
  - change (ERR_OK =? ERR_OK) with true in H. cbv iota in H. rewrite ident_async in H by lia. injection H as <- <-.
    exists q, (l ++ [cur t]). auto.
Qed.
Lemma firstn_upd (d : list byte) i x d' : upd d i x = Some d' -> firstn (i + 1) d' = firstn i d ++ [x].
Proof.
  revert i d'. induction d as [|a d IH]; intros [|i] d' H; cbn in H; try discriminate.
  - injection H as <-. reflexivity.
  - destruct (upd d i x) as [d1|] eqn:E; [|discriminate]. injection H as <-. cbn. f_equal. apply IH. exact E.
Qed.
Lemma msg_cases t nr d p t' e o : tunnel_rx t nr d p = Some (t', e, o) ->
  tx_data t' = tx_data t /\ tx_used t' = tx_used t /\ tn_q t' = tn_q t /\ queued o = [] /\ sent o = [] /\
  (tn_own t' = nr \/ tn_state t' = TFree \/ tn_own t' = tn_own t /\ (tn_state t' <> TFree -> tn_state t <> TFree)).
Proof.
  unfold tunnel_rx. intro H.
  destruct (nth_error d 0) as [c|]; [|discriminate]. destruct (nth_error d 1) as [pr|]; [|discriminate].
  destruct (nth_error d 4) as [d4|]; [|discriminate]. destruct (nth_error d 5) as [d5|]; [|discriminate]. destruct (nth_error d 6) as [d6|]; [|discriminate].
  cbv zeta in H.
  repeat match type of H with
  | (if ?b then _ else _) = _ => destruct b eqn:?
  | match tn_state t with _ => _ end = _ => destruct (tn_state t) eqn:?
  | Some (_, _, if ?b then _ else _) = _ => destruct b eqn:?
  end; injection H as <- <- <-; (split; [reflexivity|]; split; [reflexivity|]; split; [reflexivity|]; split; [reflexivity|]; split; [reflexivity|]);
    first [left; reflexivity | right; left; cbn; congruence | right; right; split; [reflexivity|cbn; congruence]].
Qed.
Lemma tstep_inv t l o t' e obs : tI t l -> top_ok o -> tstep t o = Some (t', (e, obs)) ->
  exists l', tI t' l' /\ l ++ queued obs = sent obs ++ l' /\ pend t ++ put1 o e = stream (queued obs) ++ pend t' /\ frames_ok o (queued obs).
Proof.
  intros (R & L & U & O) K H. assert (RF : forall P : Prop, P -> tI t l) by (intros; repeat split; auto; apply O; auto).
  destruct o as [nr d p|lk dat irqs|lk now thr|hw| | |]; cbn [tstep] in H.
  - destruct (tunnel_rx t nr d p) as [[[t1 e1] o1]|] eqn:Q; [|discriminate]. injection H as <- <- <-.
    destruct (msg_cases _ _ _ _ _ _ _ Q) as (A & B & C & D & F & G). exists l. rewrite D, F. split.
    + split; [rewrite C; exact R|]. rewrite A, B. split; [exact L|]. split; [exact U|]. intro NF. destruct K as (K1 & _).
      destruct G as [G|[G|[G1 G2]]]; [rewrite G; exact K1|contradiction|rewrite G1; apply O; apply G2; exact NF].
    + rewrite app_nil_r. split; [reflexivity|]. split; [|reflexivity]. unfold pend. rewrite A, B. cbn. apply app_nil_r.
  - destruct (putc t lk dat irqs) as [[[t1 e1] o1]|] eqn:Q; [|discriminate]. injection H as <- <- <-. unfold putc in Q.
    destruct (lk + 1 =? 1)%nat.
    2:{ injection Q as <- <- <-. exists l. split; [apply (RF True I)|]. cbn. rewrite !app_nil_r. auto. }
    destruct (tn_state t) eqn:TS.
    1,3: injection Q as <- <- <-; exists l; split; [apply (RF True I)|]; cbn; rewrite !app_nil_r; auto.
    assert (OW : 1 <= tn_own t <= 127) by (apply O; congruence).
    destruct (upd (tx_data t) (tx_used t) dat) as [d|] eqn:UD; [|discriminate].
    pose proof (upd_length _ _ _ _ _ UD) as UL. pose proof (firstn_upd _ _ _ _ UD) as UF.
    cbv zeta in Q. cbn [set_tx tx_used] in Q. destruct (tx_used t + 1 =? 8)%nat eqn:E8.
    + apply Nat.eqb_eq in E8. set (t2 := set_tx t d (tx_used t + 1)) in *.
      destruct (enqueue_loop t2 irqs) as [[t3 o3]|] eqn:EL; [|discriminate]. injection Q as <- <- <-.
      destruct (enq_loop irqs t2 l t3 o3 R) as (q & l' & A & B & C & D); [cbn; lia|cbn; lia|exact OW|exact EL|].
      exists l'. subst t3. split; [|split; [|split]].
      * split; [exact B|]. split; [cbn; lia|]. split; [cbn; lia|]. intros _. exact OW.
      * rewrite D. exact C.
      * rewrite D. cbn [put1]. change (ERR_OK =? 0) with true. cbv iota. unfold stream. cbn [flat_map]. unfold payload, cur at 1. cbn [snd].
        unfold pend. cbn [t2 set_tx tx_used tx_data firstn set_q]. rewrite UF, !app_nil_r. reflexivity.
      * cbn [frames_ok]. right. exists (cur t2). split; [exact D|]. exists (tn_own t). split; [exact OW|]. split; [reflexivity|].
        split; [cbn; rewrite E8; reflexivity|]. unfold payload, cur. cbn [snd]. unfold pend. cbn [t2 set_tx tx_used tx_data]. rewrite firstn_length_le; lia.
    + apply Nat.eqb_neq in E8. injection Q as <- <- <-. exists l. split; [|split; [|split]].
      * split; [exact R|]. split; [cbn; lia|]. split; [cbn; lia|]. intros _. exact OW.
      * cbn. apply app_nil_r.
      * cbn [put1]. change (ERR_OK =? 0) with true. cbv iota. cbn [queued stream flat_map app]. unfold pend. cbn [set_tx tx_used tx_data]. rewrite UF. reflexivity.
      * left. reflexivity.
  - destruct (flush t lk now thr) as [[[t1 e1] o1]|] eqn:Q; [|discriminate]. injection H as <- <- <-. unfold flush in Q.
    destruct (lk + 1 =? 1)%nat.
    2:{ injection Q as <- <- <-. exists l. split; [apply (RF True I)|]. cbn. rewrite !app_nil_r. auto. }
    destruct (tn_state t) eqn:TS.
    1,3: injection Q as <- <- <-; exists l; split; [apply (RF True I)|]; cbn; rewrite !app_nil_r; auto.
    assert (OW : 1 <= tn_own t <= 127) by (apply O; congruence).
    destruct ((0 <? tx_used t)%nat && (u32 (N.of_nat (tx_used t) + thr) <? now)) eqn:EC.
    2:{ injection Q as <- <- <-. exists l. split; [apply (RF True I)|]. cbn. rewrite !app_nil_r. auto. }
    apply andb_prop in EC. destruct EC as [EC _]. apply Nat.ltb_lt in EC.
    destruct (put_cases t l R L ltac:(lia) OW) as [[E P]|(q & E & P & R')]; rewrite P in Q.
    + change (E_DATA_TX_OVERFLOW =? ERR_OK) with false in Q. cbv iota in Q. injection Q as <- <- <-.
      assert (S0 : set_q t (tn_q t) = t) by (destruct t; reflexivity). rewrite S0. exists l. split; [apply (RF True I)|]. cbn. rewrite !app_nil_r. auto.
    + change (ERR_OK =? ERR_OK) with true in Q. cbv iota in Q. rewrite ident_async in Q by lia. injection Q as <- <- <-.
      exists (l ++ [cur t]). split; [|split; [|split]].
      * split; [exact R'|]. split; [exact L|]. split; [cbn; lia|]. intros _. exact OW.
      * reflexivity.
      * cbn [put1 queued stream flat_map payload snd]. unfold pend. cbn [set_tx tx_used tx_data firstn]. rewrite !app_nil_r. reflexivity.
      * right. exists (cur t), (tx_used t). split; [reflexivity|]. split; [lia|]. exists (tn_own t). split; [exact OW|]. split; [reflexivity|].
        split; [reflexivity|]. unfold payload, cur. cbn [snd]. unfold pend. rewrite firstn_length_le; lia.
  - destruct (tunnel_handle t hw) as [[[t1 e1] o1]|] eqn:Q; [|discriminate]. injection H as <- <- <-.
    destruct (handle_cases t l hw R) as (q1 & e & o & l1 & A & B & C & D & _). rewrite A in Q. injection Q as <- <- <-.
    exists l1. split; [split; [exact B|]; auto|]. rewrite D. rewrite app_nil_r. split; [exact C|]. split; [cbn; apply app_nil_r|reflexivity].
  - unfold shutdown in H. destruct (tn_state t) eqn:TS; injection H as <- <- <-; exists l; cbn [queued sent respond]; rewrite !app_nil_r.
    1,3: split; [apply (RF True I)|]; cbn; auto.
    split; [split; [exact R|]; split; [exact L|]; split; [exact U|]; intros _; apply O; congruence|]. cbn; auto.
  - unfold xonoff in H. destruct (tn_state t) eqn:TS; injection H as <- <- <-; exists l; cbn [queued sent]; rewrite !app_nil_r; (split; [apply (RF True I)|]); cbn; auto.
  - unfold xonoff in H. destruct (tn_state t) eqn:TS; injection H as <- <- <-; exists l; cbn [queued sent]; rewrite !app_nil_r; (split; [apply (RF True I)|]); cbn; auto.
Qed.
Lemma tI_zero : tI tun_zero [].
Proof. split; [apply drel_zero; unfold QLEN; lia|]. split; [reflexivity|]. split; [cbn; lia|]. intro H. exfalso. apply H. reflexivity. Qed.
Lemma bytes_put_cons o ops e obs rs : bytes_put (o :: ops) ((e, obs) :: rs) = put1 o e ++ bytes_put ops rs.
Proof. destruct o; cbn; try reflexivity. destruct (e =? 0); reflexivity. Qed.
Lemma obs_cons e obs rs : obs_of ((e, obs) :: rs) = obs ++ obs_of rs.
Proof. reflexivity. Qed.
Lemma stream_app a b : stream (a ++ b) = stream a ++ stream b.
Proof. apply flat_map_app. Qed.
Lemma truns ops : forall t l t' outs, tI t l -> Forall top_ok ops -> runs tstep t ops = Some (t', outs) ->
  exists l', tI t' l' /\ l ++ queued (obs_of outs) = sent (obs_of outs) ++ l' /\
    pend t ++ bytes_put ops outs = stream (queued (obs_of outs)) ++ pend t' /\ all_frames_ok ops outs.
Proof.
  induction ops as [|o ops IH]; intros t l t' outs I Ho H; cbn [runs] in H.
  - injection H as <- <-. exists l. split; [exact I|]. cbn. rewrite !app_nil_r. auto.
  - destruct (tstep t o) as [[t1 [e obs]]|] eqn:Q; [|discriminate]. destruct (runs tstep t1 ops) as [[t2 rs]|] eqn:Q2; [|discriminate]. injection H as <- <-.
    inversion Ho; subst. destruct (tstep_inv _ _ _ _ _ _ I H1 Q) as (l1 & A & B & C & D).
    destruct (IH _ _ _ _ A H2 Q2) as (l2 & F & G & HH & J). exists l2. split; [exact F|].
    rewrite obs_cons, queued_app, sent_app, bytes_put_cons, stream_app. split; [|split; [|split; [exact D|exact J]]].
    + rewrite app_assoc, B, <- app_assoc, G, app_assoc. reflexivity.
    + rewrite app_assoc, C, <- app_assoc, HH, app_assoc. reflexivity.
Qed.

(** ** the owner *)
Lemma rx_cons t nr d p c pr d2 d3 d4 d5 d6 d7 : d = [c; pr; d2; d3; d4; d5; d6; d7] -> tunnel_rx t nr d p =
  (let mine := (tn_prim t =? pr) in
    if c =? 10 then match tn_state t with TActive => if mine then Some (t, ERR_OK, [TPortXon]) else Some (t, ERR_OK, []) | _ => Some (t, ERR_OK, []) end
    else if c =? 9 then match tn_state t with TActive => if mine then Some (t, ERR_OK, [TPortXoff]) else Some (t, ERR_OK, []) | _ => Some (t, ERR_OK, []) end
    else if c =? 1 then
      match tn_state t with
      | TFree =>
          if po_open p =? ERR_OK then
            let t1 := Tun TActive pr nr nr (N.shiftl d5 8 + d6) d4 (tx_data t) (tx_used t) (tn_q t) in
            if d4 =? 0
            then Some (t1, ERR_OK, [TListen (u16 ((nr + 65535) * 4 + 1538)); respond t1 ROpenAck pr nr])
            else Some (t1, ERR_OK, [respond t1 (ROpenDeny E_TNL_HNDL_NOT_DEFINED) pr nr])
          else Some (t, po_open p, [respond t (ROpenDeny (po_open p)) pr nr])
      | _ => Some (t, ERR_OK, [respond t (ROpenDeny E_TNL_ALREADY_USED) pr nr])
      end
    else if c =? 2 then
      if po_free p =? ERR_OK then Some (set_free t, ERR_OK, [respond t RCloseAck pr nr])
      else Some (t, po_free p, [respond t (RCloseDeny (po_free p)) pr nr])
    else if c =? 8 then match tn_state t with TActive => Some (t, ERR_OK, if po_clear p =? ERR_OK then [TPortXon] else []) | _ => Some (t, ERR_OK, []) end
    else if c =? 4 then match tn_state t with TShutdown => if mine && (tn_own t =? nr) then Some (set_free t, po_free p, []) else Some (t, ERR_OK, []) | _ => Some (t, ERR_OK, []) end
    else if c =? 6 then match tn_state t with TShutdown => if mine && (tn_own t =? nr) then Some (set_tstate t TActive, ERR_OK, []) else Some (t, ERR_OK, []) | _ => Some (t, ERR_OK, []) end
    else if (c =? 3) || (c =? 5) then Some (t, ERR_OK, []) else Some (t, E_TNL_UNKNOWN_COMMAND, [])).
Proof. intros ->. reflexivity. Qed.
Lemma owner_set_q t q : owner (set_q t q) = owner t. Proof. reflexivity. Qed.
Lemma handle_frame t hw t' e o : tunnel_handle t hw = Some (t', e, o) -> owner t' = owner t /\ ~ Exists is_open_ack o.
Proof.
  unfold tunnel_handle. intro H. destruct (dtq_handle _ _ _) as [[q [e1 [f|]]]|]; [| |discriminate]; injection H as <- <- <-; split; auto.
  - destruct (e1 =? ERR_OK); intro X; inversion X; subst; [destruct H0 as (a & b & C); discriminate|inversion H0].
  - intro X. inversion X.
Qed.
Lemma loop_frame irqs : forall t t' o, enqueue_loop t irqs = Some (t', o) -> owner t' = owner t /\ ~ Exists is_open_ack o.
Proof.
  induction irqs as [|hw r IH]; intros t t' o H; cbn [enqueue_loop] in H; destruct (dtq_put _ _ _ _ _ _) as [[q e]|]; try discriminate;
    destruct (e =? ERR_OK); try discriminate.
  1,2: injection H as <- <-; split; [reflexivity|]; intro X; inversion X; subst; [destruct H0 as (a & b & C); discriminate|inversion H0].
  destruct (tunnel_handle (set_q t q) hw) as [[[t1 e1] o1]|] eqn:Q; [|discriminate]. destruct (handle_frame _ _ _ _ _ Q) as [A B].
  destruct (enqueue_loop t1 r) as [[t2 o2]|] eqn:Q2; [|discriminate]. injection H as <- <-. destruct (IH _ _ _ Q2) as [C D].
  split; [rewrite C, A; reflexivity|]. intro X. apply Exists_app in X. tauto.
Qed.
Lemma no_ack_one ob : (forall id d, ob <> TCtrl id (3 :: d)) -> ~ Exists is_open_ack [ob].
Proof. intros H X. inversion X; subst; [destruct H1 as (a & b & C); exact (H _ _ C)|inversion H1]. Qed.
Lemma no_ack_nil : ~ Exists is_open_ack []. Proof. intro X. inversion X. Qed.
Lemma other_frame t o t' e obs : tstep t o = Some (t', (e, obs)) -> (forall nr d p, o <> OMsg nr d p) -> owner t' = owner t /\ ~ Exists is_open_ack obs.
Proof.
  intros H NM. destruct o as [nr d p|lk dat irqs|lk now thr|hw| | |]; cbn [tstep] in H.
  - exfalso. eapply NM. reflexivity.
  - destruct (putc t lk dat irqs) as [[[t1 e1] o1]|] eqn:Q; [|discriminate]. injection H as <- <- <-. unfold putc in Q.
    destruct (lk + 1 =? 1)%nat; [|injection Q as <- <- <-; split; [reflexivity|apply no_ack_nil]].
    destruct (tn_state t) eqn:TS; [injection Q as <- <- <-; split; [reflexivity|apply no_ack_nil]| |injection Q as <- <- <-; split; [reflexivity|apply no_ack_nil]].
    destruct (upd _ _ _) as [dd|]; [|discriminate]. cbv zeta in Q. destruct (_ =? 8)%nat.
    + destruct (enqueue_loop _ _) as [[t2 o2]|] eqn:Q2; [|discriminate]. injection Q as <- <- <-. destruct (loop_frame _ _ _ _ Q2) as [A B]. split; [exact A|exact B].
    + injection Q as <- <- <-. split; [reflexivity|apply no_ack_nil].
  - destruct (flush t lk now thr) as [[[t1 e1] o1]|] eqn:Q; [|discriminate]. injection H as <- <- <-. unfold flush in Q.
    destruct (lk + 1 =? 1)%nat; [|injection Q as <- <- <-; split; [reflexivity|apply no_ack_nil]].
    destruct (tn_state t) eqn:TS; [injection Q as <- <- <-; split; [reflexivity|apply no_ack_nil]| |injection Q as <- <- <-; split; [reflexivity|apply no_ack_nil]].
    destruct (_ && _); [|injection Q as <- <- <-; split; [reflexivity|apply no_ack_nil]].
    destruct (dtq_put _ _ _ _ _ _) as [[q e0]|]; [|discriminate]. destruct (e0 =? ERR_OK); injection Q as <- <- <-; (split; [reflexivity|]); [apply no_ack_one; discriminate|apply no_ack_nil].
  - destruct (tunnel_handle t hw) as [[[t1 e1] o1]|] eqn:Q; [|discriminate]. injection H as <- <- <-. exact (handle_frame _ _ _ _ _ Q).
  - unfold shutdown in H. destruct (tn_state t) eqn:TS; injection H as <- <- <-; (split; [unfold owner; cbn; rewrite ?TS; reflexivity|]);
      [apply no_ack_nil|apply no_ack_one; intros; cbn; discriminate|apply no_ack_nil].
  - unfold xonoff in H. destruct (tn_state t) eqn:TS; injection H as <- <- <-; (split; [reflexivity|]); [apply no_ack_nil|apply no_ack_one; discriminate|apply no_ack_nil].
  - unfold xonoff in H. destruct (tn_state t) eqn:TS; injection H as <- <- <-; (split; [reflexivity|]); [apply no_ack_nil|apply no_ack_one; discriminate|apply no_ack_nil].
Qed.
(** a list of eight bytes *)
Lemma eight (d : list byte) : length d = 8%nat -> exists c pr d2 d3 d4 d5 d6 d7, d = [c; pr; d2; d3; d4; d5; d6; d7].
Proof. intro H. do 9 (destruct d as [|? d]; try discriminate). repeat eexists. Qed.
Lemma rx_ack t nr d p t' e obs : length d = 8%nat -> tunnel_rx t nr d p = Some (t', e, obs) -> Exists is_open_ack obs ->
  owner t = None /\ owner t' = Some (nr, nth 1 d 0) /\ nth 0 d 0 = 1 /\ nth 4 d 0 = 0 /\ po_open p = 0.
Proof.
  intros L H X. destruct (eight d L) as (c & pr & d2 & d3 & d4 & d5 & d6 & d7 & ->). rewrite (rx_cons _ _ _ _ _ _ _ _ _ _ _ _ eq_refl) in H. cbv zeta in H.
  repeat match type of H with
  | (if ?b then _ else _) = _ => destruct b eqn:?
  | match tn_state t with _ => _ end = _ => destruct (tn_state t) eqn:?
  | Some (_, _, if ?b then _ else _) = _ => destruct b eqn:?
  end; injection H as <- <- <-;
  try (exfalso; revert X; first [apply no_ack_nil | apply no_ack_one; intros; cbn; discriminate]).
  apply N.eqb_eq in Heqb1, Heqb2, Heqb3. unfold owner. rewrite Heqt0. cbn. auto.
Qed.
Lemma rx_owner t nr d p t' e obs : length d = 8%nat -> tunnel_rx t nr d p = Some (t', e, obs) -> owner t <> None ->
  owner t' = owner t \/ owner t' = None /\ (nth 0 d 0 = 2 /\ po_free p = 0 \/ nth 0 d 0 = 4 /\ owner t = Some (nr, nth 1 d 0)).
Proof.
  intros L H X. destruct (eight d L) as (c & pr & d2 & d3 & d4 & d5 & d6 & d7 & ->). rewrite (rx_cons _ _ _ _ _ _ _ _ _ _ _ _ eq_refl) in H. cbv zeta in H.
  unfold owner in *.
  repeat match type of H with
  | (if ?b then _ else _) = _ => destruct b eqn:?
  | match tn_state t with _ => _ end = _ => destruct (tn_state t) eqn:?
  | Some (_, _, if ?b then _ else _) = _ => destruct b eqn:?
  end; injection H as <- <- <-; rewrite ?Heqt0; try (left; reflexivity); try (exfalso; apply X; reflexivity).
  - right. split; [reflexivity|]. left. cbn. split; apply N.eqb_eq; assumption.
  - right. split; [reflexivity|]. right. apply andb_prop in Heqb5. destruct Heqb5 as [P1 P2]. apply N.eqb_eq in P1, P2, Heqb4. cbn. subst. auto.
Qed.
Lemma deny_eq t e pr nr : e < 65536 -> is_byte pr -> 1 <= nr <= 127 -> respond t (ROpenDeny e) pr nr = deny nr pr e.
Proof.
  intros E P R. unfold respond, deny. rewrite ctrl_ident by exact R. f_equal. unfold resp_bytes, err_bytes. cbv zeta. cbn [app].
  unfold is_byte in P. assert (U : u16 e = e) by (unfold u16; lia). rewrite U. rewrite !land_255, !shiftr_div. unfold u8.
  change (2 ^ 24) with 16777216. change (2 ^ 16) with 65536. change (2 ^ 8) with 256.
  repeat (apply (f_equal2 cons); [lia|]); reflexivity.
Qed.
Lemma ack_eq t pr nr : tn_delay t < 65536 -> is_byte pr -> 1 <= nr <= 127 -> respond t ROpenAck pr nr = open_ack nr pr (tn_delay t).
Proof.
  intros E P R. unfold respond, open_ack. rewrite ctrl_ident by exact R. f_equal. unfold resp_bytes.
  unfold is_byte in P. rewrite !land_255, !shiftr_div. unfold u8. change (2 ^ 8) with 256. repeat (apply (f_equal2 cons); [lia|]); reflexivity.
Qed.

(** ** calls of the port *)
Definition no_port (o : list tobs) : Prop := ~ In TPortXoff o /\ ~ In TPortXon o.
Lemma no_port_nil : no_port []. Proof. split; intros []. Qed.
Lemma no_port_one x : x <> TPortXoff -> x <> TPortXon -> no_port [x].
Proof. intros A B. split; intros [C|[]]; congruence. Qed.
Lemma handle_port t hw t' e o : tunnel_handle t hw = Some (t', e, o) -> no_port o.
Proof.
  unfold tunnel_handle. intro H. destruct (dtq_handle _ _ _) as [[q [e1 [f|]]]|]; [| |discriminate]; injection H as <- <- <-.
  - destruct (e1 =? ERR_OK); [apply no_port_one; discriminate|apply no_port_nil].
  - apply no_port_nil.
Qed.
Lemma loop_port irqs : forall t t' o, enqueue_loop t irqs = Some (t', o) -> no_port o.
Proof.
  induction irqs as [|hw r IH]; intros t t' o H; cbn [enqueue_loop] in H; destruct (dtq_put _ _ _ _ _ _) as [[q e]|]; try discriminate;
    destruct (e =? ERR_OK); try discriminate.
  1,2: injection H as <- <-; apply no_port_one; discriminate.
  destruct (tunnel_handle (set_q t q) hw) as [[[t1 e1] o1]|] eqn:Q; [|discriminate]. destruct (handle_port _ _ _ _ _ Q) as [A B].
  destruct (enqueue_loop t1 r) as [[t2 o2]|] eqn:Q2; [|discriminate]. injection H as <- <-. destruct (IH _ _ _ Q2) as [C D].
  split; intro X; apply in_app_or in X; tauto.
Qed.
Lemma other_port t o t' e obs : tstep t o = Some (t', (e, obs)) -> (forall nr d p, o <> OMsg nr d p) -> no_port obs.
Proof.
  intros H NM. destruct o as [nr d p|lk dat irqs|lk now thr|hw| | |]; cbn [tstep] in H.
  - exfalso. eapply NM. reflexivity.
  - destruct (putc t lk dat irqs) as [[[t1 e1] o1]|] eqn:Q; [|discriminate]. injection H as <- <- <-. unfold putc in Q.
    destruct (lk + 1 =? 1)%nat; [|injection Q as <- <- <-; apply no_port_nil].
    destruct (tn_state t) eqn:TS; [injection Q as <- <- <-; apply no_port_nil| |injection Q as <- <- <-; apply no_port_nil].
    destruct (upd _ _ _) as [dd|]; [|discriminate]. cbv zeta in Q. destruct (_ =? 8)%nat.
    + destruct (enqueue_loop _ _) as [[t2 o2]|] eqn:Q2; [|discriminate]. injection Q as <- <- <-. exact (loop_port _ _ _ _ Q2).
    + injection Q as <- <- <-. apply no_port_nil.
  - destruct (flush t lk now thr) as [[[t1 e1] o1]|] eqn:Q; [|discriminate]. injection H as <- <- <-. unfold flush in Q.
    destruct (lk + 1 =? 1)%nat; [|injection Q as <- <- <-; apply no_port_nil].
    destruct (tn_state t) eqn:TS; [injection Q as <- <- <-; apply no_port_nil| |injection Q as <- <- <-; apply no_port_nil].
    destruct (_ && _); [|injection Q as <- <- <-; apply no_port_nil].
    destruct (dtq_put _ _ _ _ _ _) as [[q e0]|]; [|discriminate]. destruct (e0 =? ERR_OK); injection Q as <- <- <-; [apply no_port_one; discriminate|apply no_port_nil].
  - destruct (tunnel_handle t hw) as [[[t1 e1] o1]|] eqn:Q; [|discriminate]. injection H as <- <- <-. exact (handle_port _ _ _ _ _ Q).
  - unfold shutdown in H. destruct (tn_state t) eqn:TS; injection H as <- <- <-; [apply no_port_nil|apply no_port_one; discriminate|apply no_port_nil].
  - unfold xonoff in H. destruct (tn_state t) eqn:TS; injection H as <- <- <-; [apply no_port_nil|apply no_port_one; discriminate|apply no_port_nil].
  - unfold xonoff in H. destruct (tn_state t) eqn:TS; injection H as <- <- <-; [apply no_port_nil|apply no_port_one; discriminate|apply no_port_nil].
Qed.
Lemma rx_flow t nr d p t' e obs : length d = 8%nat -> tunnel_rx t nr d p = Some (t', e, obs) -> In TPortXoff obs \/ In TPortXon obs ->
  t' = t /\ tn_state t = TActive /\
  (nth 0 d 0 = 8 /\ po_clear p = 0 /\ obs = [TPortXon] \/ nth 0 d 0 = 9 /\ nth 1 d 0 = tn_prim t /\ obs = [TPortXoff] \/ nth 0 d 0 = 10 /\ nth 1 d 0 = tn_prim t /\ obs = [TPortXon]).
Proof.
  intros L H X. destruct (eight d L) as (c & pr & d2 & d3 & d4 & d5 & d6 & d7 & ->). rewrite (rx_cons _ _ _ _ _ _ _ _ _ _ _ _ eq_refl) in H. cbv zeta in H.
  repeat match type of H with
  | (if ?b then _ else _) = _ => destruct b eqn:?
  | match tn_state t with _ => _ end = _ => destruct (tn_state t) eqn:?
  | Some (_, _, if ?b then _ else _) = _ => destruct b eqn:?
  end; injection H as <- <- <-;
  try (exfalso; destruct X as [X|X]; revert X; cbn; intuition discriminate);
  repeat match goal with E : (_ =? _) = true |- _ => apply N.eqb_eq in E end; subst; cbn; auto 10.
Qed.
