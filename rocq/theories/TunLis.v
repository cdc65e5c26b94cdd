(** Lemmas for C97. *)
From Verif Require Import Words WordsFacts Bits ErrModel NodeModel LookModel AsyncModel AsyncSpec AsyncProofs TunnelModel TunnelSpec TunnelProofs.

(** ** the tunnel narrows the filter only together with an acknowledge *)
Definition lis (o : tobs) : Prop := match o with TListen _ => False | _ => True end.
Definition nolis (o : list tobs) : Prop := Forall lis o.
Lemma lis_nil : nolis []. Proof. constructor. Qed.
Lemma lis_one x : lis x -> nolis [x]. Proof. intro H. repeat constructor. exact H. Qed.
Lemma handle_lis t hw t' e o : tunnel_handle t hw = Some (t', e, o) -> nolis o.
Proof.
  unfold tunnel_handle. intro H. destruct (dtq_handle _ _ _) as [[q [e1 [f|]]]|]; [| |discriminate]; injection H as <- <- <-.
  - destruct (e1 =? ERR_OK); [apply lis_one; exact I|apply lis_nil].
  - apply lis_nil.
Qed.
Lemma loop_lis irqs : forall t t' o, enqueue_loop t irqs = Some (t', o) -> nolis o.
Proof.
  induction irqs as [|hw r IH]; intros t t' o H; cbn [enqueue_loop] in H; destruct (dtq_put _ _ _ _ _ _) as [[q e]|]; try discriminate;
    destruct (e =? ERR_OK); try discriminate.
  1,2: injection H as <- <-; apply lis_one; exact I.
  destruct (tunnel_handle (set_q t q) hw) as [[[t1 e1] o1]|] eqn:Q; [|discriminate]. pose proof (handle_lis _ _ _ _ _ Q) as A.
  destruct (enqueue_loop t1 r) as [[t2 o2]|] eqn:Q2; [|discriminate]. injection H as <- <-. pose proof (IH _ _ _ Q2) as C.
  apply Forall_app. split; assumption.
Qed.
Lemma other_lis t o t' e obs : tstep t o = Some (t', (e, obs)) -> (forall nr d p, o <> OMsg nr d p) -> nolis obs.
Proof.
  intros H NM. destruct o as [nr d p|lk dat irqs|lk now thr|hw| | |]; cbn [tstep] in H.
  - exfalso. eapply NM. reflexivity.
  - destruct (putc t lk dat irqs) as [[[t1 e1] o1]|] eqn:Q; [|discriminate]. injection H as <- <- <-. unfold putc in Q.
    destruct (lk + 1 =? 1)%nat; [|injection Q as <- <- <-; apply lis_nil].
    destruct (tn_state t) eqn:TS; [injection Q as <- <- <-; apply lis_nil| |injection Q as <- <- <-; apply lis_nil].
    destruct (upd _ _ _) as [dd|]; [|discriminate]. cbv zeta in Q. destruct (_ =? 8)%nat.
    + destruct (enqueue_loop _ _) as [[t2 o2]|] eqn:Q2; [|discriminate]. injection Q as <- <- <-. exact (loop_lis _ _ _ _ Q2).
    + injection Q as <- <- <-. apply lis_nil.
  - destruct (flush t lk now thr) as [[[t1 e1] o1]|] eqn:Q; [|discriminate]. injection H as <- <- <-. unfold flush in Q.
    destruct (lk + 1 =? 1)%nat; [|injection Q as <- <- <-; apply lis_nil].
    destruct (tn_state t) eqn:TS; [injection Q as <- <- <-; apply lis_nil| |injection Q as <- <- <-; apply lis_nil].
    destruct (_ && _); [|injection Q as <- <- <-; apply lis_nil].
    destruct (dtq_put _ _ _ _ _ _) as [[q e0]|]; [|discriminate]. destruct (e0 =? ERR_OK); injection Q as <- <- <-; [apply lis_one; exact I|apply lis_nil].
  - destruct (tunnel_handle t hw) as [[[t1 e1] o1]|] eqn:Q; [|discriminate]. injection H as <- <- <-. exact (handle_lis _ _ _ _ _ Q).
  - unfold shutdown in H. destruct (tn_state t) eqn:TS; injection H as <- <- <-; [apply lis_nil|apply lis_one; exact I|apply lis_nil].
  - unfold xonoff in H. destruct (tn_state t) eqn:TS; injection H as <- <- <-; [apply lis_nil|apply lis_one; exact I|apply lis_nil].
  - unfold xonoff in H. destruct (tn_state t) eqn:TS; injection H as <- <- <-; [apply lis_nil|apply lis_one; exact I|apply lis_nil].
Qed.
Lemma rx_lis t nr d p t' e obs : length d = 8%nat -> tunnel_rx t nr d p = Some (t', e, obs) ->
  nolis obs \/ obs = [TListen (u16 ((nr + 65535) * 4 + 1538)); respond t' ROpenAck (nth 1 d 0) nr] /\ owner t' = Some (nr, nth 1 d 0).
Proof.
  intros L H. destruct (eight d L) as (c & pr & d2 & d3 & d4 & d5 & d6 & d7 & ->). rewrite (rx_cons _ _ _ _ _ _ _ _ _ _ _ _ eq_refl) in H. cbv zeta in H.
  repeat match type of H with
  | (if ?b then _ else _) = _ => destruct b eqn:?
  | match tn_state t with _ => _ end = _ => destruct (tn_state t) eqn:?
  | Some (_, _, if ?b then _ else _) = _ => destruct b eqn:?
  end; injection H as <- <- <-;
  try (left; first [apply lis_nil | apply lis_one; exact I]).
  right. split; reflexivity.
Qed.
Lemma step_lis t o t' e obs : top_ok o -> tstep t o = Some (t', (e, obs)) ->
  nolis obs \/ exists nr peer, 1 <= nr <= 127 /\ obs = [TListen (u16 ((nr + 65535) * 4 + 1538)); respond t' ROpenAck peer nr] /\ owner t' = Some (nr, peer).
Proof.
  intros K H. destruct o as [nr d p|lk dat irqs|lk now thr|hw| | |]; try (left; eapply other_lis; [exact H|discriminate]).
  cbn [tstep] in H. destruct (tunnel_rx t nr d p) as [[[t1 e1] o1]|] eqn:Q; [|discriminate]. injection H as <- <- <-. destruct K as (K1 & K2 & _).
  destruct (rx_lis _ _ _ _ _ _ _ K2 Q) as [A|[A B]]; [left; exact A|right]. exists nr, (nth 1 d 0). auto.
Qed.
Lemma ack_is t pr nr : is_open_ack (respond t ROpenAck pr nr).
Proof. unfold respond, resp_bytes. eexists. eexists. reflexivity. Qed.
