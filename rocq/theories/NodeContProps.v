(** C92: the receive objects of a module whose image is declared valid hold the data of that cycle. *)
From Verif Require Import Words ErrModel NodeModel NodeSpec NodeImage NodeContSpec NodeCont NodeEx.

(** A cycle between two requests in which the modules are not changed.  If the image of module [pos] is declared valid, the
    memory of each of its listening receive objects holds what its conversion makes of one frame, accepted for that object in
    this cycle; exactly one frame of the cycle was accepted for it, and the request that gives the verdict leaves the memory
    alone.
    Missing from the full claim: the first cycle and cycles in which the modules are changed (refuted below), memory shared by
    several objects or written by the application, more than 65536 operations in one cycle. *)
Theorem C92_content_partial : forall E pre d1 t1 mid d2 t2 s0 s1 s2 s3 new pos obj a,
  reached E pre s0 -> existsb is_request pre = true -> d1 <= 1 ->
  step E (request d1 t1) s0 = Ret (tt, s1) -> no_requests mid -> run E mid s1 = Ret (tt, s2) ->
  step E (request d2 t2) s2 = Ret (tt, s3) -> added s2 s3 new -> N.of_nat (length mid) <= 65536 ->
  existsb reconfigures mid = false -> not_written a mid -> own_memory s1 pos obj a ->
  In (pos, true) (verdicts new) -> (obj < listening s2 pos)%nat ->
  n_mem s3 = n_mem s2 /\ receptions E s1 mid pos obj = 1%nat /\
  exists before mo id dlc data now rest sa g app,
    mid = before ++ OpFrame mo id dlc data now :: rest /\ run E before s1 = Ret (tt, sa) /\ accepted E sa (OpFrame mo id dlc data now) pos obj = true /\
    r_conv_s (rxat (modat s2 pos) obj) = Some g /\ nth_error (n_mem s1) a = Some app /\ nth_error (n_mem s2) a = Some (fst (g data app dlc)).
Proof.
  intros E pre d1 t1 mid d2 t2 s0 s1 s2 s3 new pos obj a R P D1 S1 NR RUN S3 AD LEN NC NW OWN V L.
  pose proof (reached_step E _ _ _ _ R S1) as R1. pose proof (reached_run E _ _ _ _ R1 RUN) as R2.
  assert (forallb (fun o => negb (reconfigures o)) mid = true) as NC'.
  { clear - NC. induction mid as [|o l IH]; [reflexivity|]. cbn [existsb forallb] in *. apply orb_false_elim in NC. destruct NC as [N1 N2]. rewrite N1. apply IH. exact N2. }
  destruct (request_same E _ _ _ _ _ R S1) as (T1 & _). destruct (request_same E _ _ _ _ _ R2 S3) as (_ & _ & M3).
  assert (forall p, modat s2 p = modat s1 p) as V2 by (intro p; exact (proj1 (cont_view E mid _ s1 s2 R1 NR NC' RUN) p)).
  assert (forall p, modat s1 p = modat s0 p) as V1 by (intro p; unfold modat, tab_of; rewrite T1; reflexivity).
  destruct (image_verdict_short E pre d1 t1 mid d2 t2 s0 s1 s2 s3 new R P D1 S1 NR RUN S3 AD LEN) as [_ I].
  specialize (I pos true V). unfold listening in I, L. rewrite V2, V1 in I. specialize (I (le_n _)). destruct I as [I _]. specialize (I eq_refl obj).
  rewrite V2, V1 in L. specialize (I L). split; [exact M3|]. split; [exact I|].
  destruct (cont_once E pos obj a mid _ s1 s2 R1 NR NC' NW OWN RUN I) as (before & mo & id & dlc & data & now & rest & sa & g & app & B0 & B1 & B2 & B3 & B4 & B5).
  exists before, mo, id, dlc, data, now, rest, sa, g, app. rewrite V2. repeat (split; [assumption|]). assumption.
Qed.
Print Assumptions C92_content_partial.

(** the cycle of the C01 example, for module 20 with two receive objects; a status request in between *)
Definition c92_pre : list op := add2 ++ [request 1 5; rx_frame mo_2_0 20 0 (repeat 9 8)].
Definition c92_mid : list op := [rx_frame mo_2_1 20 1 [1;2;3;4;5;6;7;8]; sysmsg 1 [1;0;0;0;0;0;0;0]; OpWrite 9 (repeat 5 8); rx_frame mo_2_0 20 0 (repeat 8 8)].
(** decides [own_memory] *)
Definition ownb (s : node) (pos obj a : nat) : bool :=
  (r_addr (rxat (modat s pos) obj) =? a)%nat && negb (r_addr rxo0 =? a)%nat &&
  forallb (fun e => forallb (fun j => negb (r_addr (rxat (modat s (snd e)) j) =? a)%nat || (snd e =? pos)%nat && (j =? obj)%nat)
    (seq 0 (length (m_rx (modat s (snd e)))))) (h_rxtab (n_hw s)).
Lemma ownb_ok s pos obj a : ownb s pos obj a = true -> own_memory s pos obj a.
Proof.
  unfold ownb. intro H. apply andb_prop in H. destruct H as [H H3]. apply andb_prop in H. destruct H as [H1 H2].
  apply Nat.eqb_eq in H1. apply negb_true_iff, Nat.eqb_neq in H2. split; [exact H1|]. intros mo p j O A. unfold owner in O.
  destruct (find (fun e => (fst e =? mo)%nat) (h_rxtab (n_hw s))) as [e|] eqn:F; [|discriminate]. injection O as <-. apply find_some in F. destruct F as [F _].
  rewrite forallb_forall in H3. specialize (H3 e F). rewrite forallb_forall in H3.
  destruct (Nat.lt_ge_cases j (length (m_rx (modat s (snd e))))) as [Lj|Lj].
  - specialize (H3 j ltac:(apply in_seq; lia)). rewrite A, Nat.eqb_refl in H3. cbn [negb orb] in H3. apply andb_prop in H3. destruct H3 as [P1 P2].
    apply Nat.eqb_eq in P1, P2. auto.
  - unfold rxat in A. rewrite nth_overflow in A by exact Lj. congruence.
Qed.
Example C92_case : exists s0 s1 s2 s3 new,
  reached E0 c92_pre s0 /\ existsb is_request c92_pre = true /\ step E0 (request 0 15) s0 = Ret (tt, s1) /\ no_requests c92_mid /\
  run E0 c92_mid s1 = Ret (tt, s2) /\ step E0 (request 1 25) s2 = Ret (tt, s3) /\ added s2 s3 new /\
  existsb reconfigures c92_mid = false /\ not_written 2 c92_mid /\ own_memory s1 1 1 2 /\ In (1%nat, true) (verdicts new) /\ listening s2 1 = 2%nat /\
  nth_error (n_mem s1) 2 = Some (repeat 2 8) /\ nth_error (n_mem s2) 2 = Some [1;2;3;4;5;6;7;8].
Proof.
  exists (after c92_pre), (after (c92_pre ++ [request 0 15])), (after ((c92_pre ++ [request 0 15]) ++ c92_mid)),
    (after (((c92_pre ++ [request 0 15]) ++ c92_mid) ++ [request 1 25])), (delta ((c92_pre ++ [request 0 15]) ++ c92_mid) [request 1 25]).
  assert (not_written 2 c92_mid) as NW by (intros d H; cbn [c92_mid In] in H; unfold rx_frame, sysmsg in H; intuition discriminate).
  assert (own_memory (after (c92_pre ++ [request 0 15])) 1 1 2) as OW by (apply ownb_ok; vm_compute; reflexivity).
  ex; try assumption; vm_compute; tauto.
Qed.

(** C92 is false in the cycle opened by the first request: module 10 is declared valid although it got no data in the cycle;
    its memory holds data received before the first request. *)
Theorem C92_first_cycle_refuted : exists pre mid s0 s1 s2 s3 new,
  reached E0 pre s0 /\ existsb is_request pre = false /\ step E0 (request 1 5) s0 = Ret (tt, s1) /\ no_requests mid /\
  run E0 mid s1 = Ret (tt, s2) /\ step E0 (request 1 15) s2 = Ret (tt, s3) /\ added s2 s3 new /\
  existsb reconfigures mid = false /\ In (0%nat, true) (verdicts new) /\ listening s2 0 = 1%nat /\ receptions E0 s1 mid 0 0 = 0%nat /\
  nth_error (n_mem s2) 0 = Some (repeat 9 8).
Proof.
  pose (pre := add2 ++ [rx_frame mo_1_0 10 0 (repeat 9 8)]). pose (mid := [rx_frame mo_2_0 20 0 (repeat 8 8)]).
  exists pre, mid, (after pre), (after (pre ++ [request 1 5])), (after ((pre ++ [request 1 5]) ++ mid)),
    (after (((pre ++ [request 1 5]) ++ mid) ++ [request 1 15])), (delta ((pre ++ [request 1 5]) ++ mid) [request 1 15]).
  subst pre mid. ex; vm_compute; tauto.
Qed.
Print Assumptions C92_first_cycle_refuted.
(** C92 is false when the module is silenced and woken after its data: the data are overwritten with zeros, and the image is
    declared valid. *)
Theorem C92_zeros_refuted : exists pre mid s0 s1 s2 s3 new,
  reached E0 pre s0 /\ existsb is_request pre = true /\ step E0 (request 1 15) s0 = Ret (tt, s1) /\ no_requests mid /\
  run E0 mid s1 = Ret (tt, s2) /\ step E0 (request 1 25) s2 = Ret (tt, s3) /\ added s2 s3 new /\
  own_memory s1 1 1 2 /\ not_written 2 mid /\ In (1%nat, true) (verdicts new) /\ listening s2 1 = 2%nat /\
  In (rx_frame mo_2_1 20 1 (repeat 7 8)) mid /\ receptions E0 s1 mid 1 1 = 1%nat /\ nth_error (n_mem s2) 2 = Some (repeat 0 8).
Proof.
  pose (mid := [rx_frame mo_2_0 20 0 (repeat 7 8); rx_frame mo_2_1 20 1 (repeat 7 8); OpSilent [109;111;100;50;0] 20 SILENT; OpSilent [109;111;100;50;0] 20 AWAKE]).
  exists c92_pre, mid, (after c92_pre), (after (c92_pre ++ [request 1 15])), (after ((c92_pre ++ [request 1 15]) ++ mid)),
    (after (((c92_pre ++ [request 1 15]) ++ mid) ++ [request 1 25])), (delta ((c92_pre ++ [request 1 15]) ++ mid) [request 1 25]).
  assert (not_written 2 mid) as NW by (subst mid; intros d H; cbn [In] in H; unfold rx_frame in H; intuition discriminate).
  assert (own_memory (after (c92_pre ++ [request 1 15])) 1 1 2) as OW by (apply ownb_ok; vm_compute; reflexivity).
  subst mid. ex; try assumption; vm_compute; tauto.
Qed.
Print Assumptions C92_zeros_refuted.
