(** Specification of a block that arrives through the control receive queue. *)
From Verif Require Import Words ErrModel NodeModel LookModel LookSpec XBufModel XBufSpec AsyncModel AsyncSpec XloadModel XloadSpec DlQueueModel.

(** the messages that arrive, in order; the results of their arrivals; the calls of handlers and the messages sent *)
Fixpoint arrivals (es : list qev) : list (N * list byte) :=
  match es with QArrive _ _ nr d :: r => (nr, d) :: arrivals r | _ :: r => arrivals r | [] => [] end.
Fixpoint results (os : list qobs) : list N := match os with QRes e :: r => e :: results r | _ :: r => results r | [] => [] end.
Fixpoint effects (os : list qobs) : list xobs := match os with QObs o :: r => o :: effects r | _ :: r => effects r | [] => [] end.

(** the messages of a block: the data messages and the block end *)
Definition blk_frames (nr : N) (b : blk) : list (N * list byte) := map (fun m => (nr, 0x15 :: m)) (b_msgs b) ++ [(nr, blk_end_msg b)].

(** the module is configured and awake at every event, and the application's handler is [p] at every poll *)
Definition ev_ok (nr : N) (p : hprog) (e : qev) : Prop :=
  match e with QArrive tab silent _ _ => listening tab silent nr | QPoll tab silent p' => listening tab silent nr /\ p' = p end.
Definition poll_ok (nr : N) (p : hprog) (e : qev) : Prop :=
  match e with QArrive _ _ _ _ => False | QPoll tab silent p' => listening tab silent nr /\ p' = p end.

(** an empty queue reached by any history of arrivals and polls: what was accepted has been taken *)
Definition emptied (L : nat) (q : crq) : Prop :=
  (0 < L)%nat /\ exists ops outs acc, Forall cop_ok ops /\ runs (crq_step L) (crq_zero L) ops = Some (q, outs) /\ accepted_msgs ops outs acc /\ acc = AsyncSpec.taken outs.
(** a stack in which a download to module [nr] with component [c] has been started, and its blocks so far have left [l] in
    the buffer; [h] is the handler of block ends *)
Definition downloading (size : nat) (nr h : N) (c : comp) (l : list byte) (x : xst) : Prop :=
  exists pre s tab silent hs he name crc id maxb delay blks os es obs,
    ready size pre s tab silent nr hs h he /\ request name crc id /\ requested s tab nr name crc id c /\ maxb < 65536 /\ delay < 256 /\
    delivered size nr h c [] blks l os /\ xl_run size (dl_ops tab silent nr name crc id maxb delay blks) s = Some (es, x, obs).
(** a block that fits, with a handler that accepts it *)
Record good_blk (size : nat) (l : list byte) (b : blk) (l1 : list byte) (o : list xobs) : Prop := {
  gb_ok : blk_ok b; gb_hand : buffer_only (b_hand b); gb_fit : (length l + length (b_bytes b) + length (b_fill b) <= size)%nat;
  gb_acc : on_list size (b_hand b) (l ++ b_bytes b) = (l1, o, ERR_OK)
}.
(** a block and its schedule: arrivals and polls, then polls only, as many as there are messages *)
Definition scheduled (nr : N) (i : blk * (list qev * list qev)) : Prop :=
  let '(b, (evs, tl)) := i in
  Forall (ev_ok nr (b_hand b)) evs /\ arrivals evs = blk_frames nr b /\ Forall (poll_ok nr (b_hand b)) tl /\ (length (blk_frames nr b) <= length tl)%nat.
Definition events (i : blk * (list qev * list qev)) : list qev := fst (snd i) ++ snd (snd i).
