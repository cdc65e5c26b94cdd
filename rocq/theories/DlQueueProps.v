(** Properties of a download behind the control receive queue: C98. *)
From Verif Require Import Words ErrModel NodeModel LookModel LookSpec XBufModel XBufSpec AsyncModel AsyncSpec XloadModel XloadSpec XloadProofs XloadRun XloadProps DlQueueModel DlQueueSpec DlQueue.

(** ** C98: all or nothing.  A download is running and the queue is empty, both after any history.  The messages of a block
    arrive in their order; the main loop polls at any moments in between, and at last as often as there are messages.  If
    every message was accepted, the handler of block ends is called once with the bytes of the block and the block is
    acknowledged; if the block end was accepted and a data message was refused, no handler is called and the download is
    terminated with an error; if the block end was refused, nothing happens at all. *)
Theorem C98_all_or_nothing : forall L size nr h c l x q b l1 o evs tl,
  downloading size nr h c l x -> emptied L q -> good_blk size l b l1 o -> scheduled nr (b, (evs, tl)) ->
  exists q' x' obs, dq_run L size (evs ++ tl) (DQS q x) = Some (DQS q' x', obs) /\ emptied L q' /\
    length (results obs) = length (blk_frames nr b) /\ Forall (fun e => e = ERR_OK \/ e = E_RX_QUEUE_OVERFLOW) (results obs) /\
    (Forall (eq ERR_OK) (results obs) -> effects obs = XCalled HBlockEnd h c :: o ++ [ack_msg nr] /\ downloading size nr h c l1 x') /\
    (last (results obs) ERR_OK = ERR_OK -> ~ Forall (eq ERR_OK) (results obs) -> effects obs = [term_msg nr E_COUNT_NOT_MATCH] /\ x_prog x' = Idle) /\
    (last (results obs) ERR_OK <> ERR_OK -> effects obs = [] /\ x_prog x' = InProgress).
Proof.
  intros L size nr h c l x q b l1 o evs tl DL EM G (S1 & S2 & S3 & S4).
  destruct (through L size nr h c l x q b l1 o evs tl DL EM G S1 S2 S3 S4) as (q' & x' & obs & A1 & A2 & A3 & A4 & _ & A5 & A6 & A7).
  exists q', x', obs. auto 10.
Qed.
Print Assumptions C98_all_or_nothing.
(** a queue with room for the longest block: any number of blocks, each polled empty before the next one, are delivered as if
    there were no queue, whatever the moments of the polls *)
Theorem C98_room : forall L size nr h c items l x q l' os,
  downloading size nr h c l x -> emptied L q -> delivered size nr h c l (map fst items) l' os ->
  Forall (scheduled nr) items -> Forall (fun i => (length (blk_frames nr (fst i)) <= L)%nat) items ->
  exists q' x' obs, dq_run L size (concat (map events items)) (DQS q x) = Some (DQS q' x', obs) /\ effects obs = os /\ Forall (eq ERR_OK) (results obs) /\
    downloading size nr h c l' x' /\ emptied L q'.
Proof. intros L size nr h c. exact (chain L size nr h c). Qed.
Print Assumptions C98_room.
(** only the block end was refused: sending it again completes the block *)
Theorem C98_end_again : forall L size nr h c l x q b l1 o evs tl q1 x1 obs evs2 tl2,
  downloading size nr h c l x -> emptied L q -> good_blk size l b l1 o -> scheduled nr (b, (evs, tl)) ->
  dq_run L size (evs ++ tl) (DQS q x) = Some (DQS q1 x1, obs) -> results obs = repeat ERR_OK (length (b_msgs b)) ++ [E_RX_QUEUE_OVERFLOW] ->
  Forall (ev_ok nr (b_hand b)) evs2 -> arrivals evs2 = [(nr, blk_end_msg b)] -> Forall (poll_ok nr (b_hand b)) tl2 -> (1 <= length tl2)%nat ->
  exists q2 x2 obs2, dq_run L size (evs2 ++ tl2) (DQS q1 x1) = Some (DQS q2 x2, obs2) /\ emptied L q2 /\ results obs2 = [ERR_OK] /\
    effects obs2 = XCalled HBlockEnd h c :: o ++ [ack_msg nr] /\ downloading size nr h c l1 x2.
Proof. intros L size nr h c l x q b l1 o evs tl q1 x1 obs evs2 tl2 DL EM G (S1 & S2 & S3 & S4). apply (end_again L size nr h c l x q b l1 o evs tl q1 x1 obs evs2 tl2); assumption. Qed.
Print Assumptions C98_end_again.
(** finding: a master that got no acknowledge cannot send the block again.  Only the block end was refused, the whole block is
    sent once more and every message of it is accepted: the download is terminated, because the data messages of the first
    attempt are still counted *)
Theorem C98_block_again_refuted : forall L size nr h c l x q b l1 o evs tl q1 x1 obs evs2 tl2,
  downloading size nr h c l x -> emptied L q -> good_blk size l b l1 o -> scheduled nr (b, (evs, tl)) ->
  dq_run L size (evs ++ tl) (DQS q x) = Some (DQS q1 x1, obs) -> results obs = repeat ERR_OK (length (b_msgs b)) ++ [E_RX_QUEUE_OVERFLOW] ->
  scheduled nr (b, (evs2, tl2)) -> b_msgs b <> [] -> (length l + 2 * length (concat (b_msgs b)) <= size)%nat ->
  exists q2 x2 obs2, dq_run L size (evs2 ++ tl2) (DQS q1 x1) = Some (DQS q2 x2, obs2) /\
    (Forall (eq ERR_OK) (results obs2) -> effects obs2 = [term_msg nr E_COUNT_NOT_MATCH] /\ x_prog x2 = Idle).
Proof.
  intros L size nr h c l x q b l1 o evs tl q1 x1 obs evs2 tl2 DL EM G (S1 & S2 & S3 & S4) RU RS (T1 & T2 & T3 & T4) NE FIT.
  apply (block_again L size nr h c l x q b l1 o evs tl q1 x1 obs evs2 tl2); assumption.
Qed.
Print Assumptions C98_block_again_refuted.

(** module 10, buffer of 32 bytes, the block of nine bytes of C42 (two data messages and the block end) *)
Definition st98 : xst := match xl_run 32 (dl_ops tab41 sil41 10 name42 [0x12; 0x34] [0; 1; 2; 3] 8 5 []) (st41 32) with Some (_, s, _) => s | None => xst_zero 32 end.
Lemma down98 : downloading 32 10 2 comp42 [] st98.
Proof.
  exists pre41, (st41 32), tab41, sil41, 1, 3, name42, [0x12; 0x34], [0; 1; 2; 3], 8, 5, []. do 3 eexists. split; [exact ready42|]. split; [exact request42|]. split; [exact requested42|].
  split; [reflexivity|]. split; [reflexivity|]. split; [apply DeNil|]. vm_compute. reflexivity.
Qed.
Lemma empty98 L : (0 < L)%nat -> emptied L (crq_zero L).
Proof. intro H. split; [exact H|]. exists [], [], []. split; [constructor|]. split; [reflexivity|]. split; [constructor|reflexivity]. Qed.
Lemma good98 : good_blk 32 [] blk42a [5; 6; 7; 8; 9] [got 1; got 2; got 3; got 4].
Proof. constructor; [split; [repeat constructor|reflexivity]|apply reading_only|cbn; lia|reflexivity]. Qed.
Definition arr98 (d : list byte) : qev := QArrive tab41 sil41 10 d.
Definition poll98 : qev := QPoll tab41 sil41 (reading 4).
Definition m98a : list byte := [0x15; 1; 2; 3; 4; 5; 6; 7].
Definition m98b : list byte := [0x15; 8; 9; 170; 170; 170; 170; 170].
Definition m98e : list byte := [0x16; 0; 9; 0; 2; 0; 0; 0].
Definition tl98 : list qev := [poll98; poll98; poll98].
Lemma tl_ok98 : Forall (poll_ok 10 (reading 4)) tl98.
Proof. repeat constructor; exact lis41. Qed.
Ltac sched98 := split; [repeat constructor; exact lis41|split; [reflexivity|split; [exact tl_ok98|cbn; lia]]].
Definition outcome98 (L : nat) (evs : list qev) : option (list N * list xobs * prog_st) :=
  match dq_run L 32 evs (DQS (crq_zero L) st98) with Some (s, obs) => Some (results obs, effects obs, x_prog (qs_x s)) | None => None end.
(** a queue of two messages: polled in time; not polled, the block end is refused; a queue of one message: the second data
    message is refused; the refused block end again; the whole block again *)
Example C98_case :
  scheduled 10 (blk42a, ([arr98 m98a; poll98; arr98 m98b; arr98 m98e], tl98)) /\
  outcome98 2 ([arr98 m98a; poll98; arr98 m98b; arr98 m98e] ++ tl98) =
    Some ([ERR_OK; ERR_OK; ERR_OK], [XCalled HBlockEnd 2 comp42; got 1; got 2; got 3; got 4; ack_msg 10], InProgress) /\
  scheduled 10 (blk42a, ([arr98 m98a; arr98 m98b; arr98 m98e], tl98)) /\
  outcome98 2 ([arr98 m98a; arr98 m98b; arr98 m98e] ++ tl98) = Some ([ERR_OK; ERR_OK; E_RX_QUEUE_OVERFLOW], [], InProgress) /\
  scheduled 10 (blk42a, ([arr98 m98a; arr98 m98b; poll98; arr98 m98e], tl98)) /\
  outcome98 1 ([arr98 m98a; arr98 m98b; poll98; arr98 m98e] ++ tl98) = Some ([ERR_OK; E_RX_QUEUE_OVERFLOW; ERR_OK], [term_msg 10 E_COUNT_NOT_MATCH], Idle) /\
  outcome98 2 (([arr98 m98a; arr98 m98b; arr98 m98e] ++ tl98) ++ [arr98 m98e; poll98]) =
    Some ([ERR_OK; ERR_OK; E_RX_QUEUE_OVERFLOW; ERR_OK], [XCalled HBlockEnd 2 comp42; got 1; got 2; got 3; got 4; ack_msg 10], InProgress) /\
  outcome98 2 (([arr98 m98a; arr98 m98b; arr98 m98e] ++ tl98) ++ [arr98 m98a; poll98; arr98 m98b; arr98 m98e] ++ tl98) =
    Some ([ERR_OK; ERR_OK; E_RX_QUEUE_OVERFLOW; ERR_OK; ERR_OK; ERR_OK], [term_msg 10 E_COUNT_NOT_MATCH], Idle).
Proof.
  split; [sched98|]. split; [vm_compute; reflexivity|]. split; [sched98|]. split; [vm_compute; reflexivity|]. split; [sched98|]. split; [vm_compute; reflexivity|].
  split; [vm_compute; reflexivity|]. vm_compute. reflexivity.
Qed.
(** the hypotheses are met: the theorem applied to the polled schedule *)
Example C98_applied : exists q' x' obs, dq_run 2 32 ([arr98 m98a; poll98; arr98 m98b; arr98 m98e] ++ tl98) (DQS (crq_zero 2) st98) = Some (DQS q' x', obs) /\ emptied 2 q'.
Proof.
  destruct (C98_all_or_nothing 2 32 10 2 comp42 [] st98 (crq_zero 2) blk42a _ _ [arr98 m98a; poll98; arr98 m98b; arr98 m98e] tl98 down98 (empty98 2 ltac:(lia)) good98) as (q' & x' & obs & A & B & _);
    [sched98|]. exists q', x', obs. auto.
Qed.
