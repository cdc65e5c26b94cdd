(** Properties C23, C24, C25, C27: the error memory. *)
From Verif Require Import Words ErrModel ErrSpec ErrProofs.

(** C23: while the memory is never filled, every operation sequence behaves like an ideal FIFO
    (same results of every call), and no access leaves the storage. *)
Theorem C23_errors_fifo : forall size ops, (2 <= size)%nat -> never_fills size ops ->
  exists q, eq_run size (eq_reset size) ops = Some (q, snd (fifo_run (false, []) ops))
            /\ eq_count q = length (pending ops).
Proof. exact fifo_exact. Qed.
Print Assumptions C23_errors_fifo.

(** C23, in terms of the calls alone: what was entered is what was read, in order and complete with all
    fields, followed by what is still stored. *)
Theorem C23_nothing_lost : forall size ops q outs, (2 <= size)%nat -> never_fills size ops ->
  eq_run size (eq_reset size) ops = Some (q, outs) ->
  exists rest, sent ops = got outs ++ rest /\ eq_count q = length rest.
Proof. exact fifo_order. Qed.
Print Assumptions C23_nothing_lost.

Example C23_case :
  never_fills 16 [ESend 5 1 10 7 5 2; ESend 6 0 8 7 5 3; EGet; ESend 7 0 15 7 5 3; ESend 8 9 4 7 1 2; EGet; EGet; EGet; ECount]
  /\ exists q outs, eq_run 16 (eq_reset 16) [ESend 5 1 10 7 5 2; ESend 6 0 8 7 5 3; EGet; ESend 7 0 15 7 5 3; ESend 8 9 4 7 1 2; EGet; EGet; EGet; ECount]
       = Some (q, outs) /\ length (got outs) = 3%nat.
Proof.
  split.
  - intro n. do 10 (destruct n as [|n]; [vm_compute; lia|]). cbn [firstn]. destruct n; vm_compute; lia.
  - eexists. eexists. split; vm_compute; reflexivity.
Qed.

(** C24 is false of the code: for every queue size there is a sequence of calls that writes outside the
    queue storage (fill it before the first read, read two entries, enter one more). *)
Theorem C24_overflow_refuted : forall size, (2 <= size)%nat ->
  exists ops, eq_run size (eq_reset size) ops = None.
Proof. exact overflow_refuted. Qed.
Print Assumptions C24_overflow_refuted.

(** C24, the part that holds, and exactly when: unless an overflow happened when the number of reads was a
    multiple of the size and something is entered afterwards, the queue keeps the oldest errors, appends one
    'queue full' entry, rejects what follows, and works as before after reading. *)
Theorem C24_overflow_partial : forall size ops, (2 <= size)%nat ->
  if hazard size (false, []) 0 false ops then eq_run size (eq_reset size) ops = None
  else exists q, eq_run size (eq_reset size) ops = Some (q, snd (bounded_run size (false, []) ops))
       /\ eq_count q = length (snd (fst (bounded_run size (false, []) ops))).
Proof. exact overflow_exact. Qed.
Print Assumptions C24_overflow_partial.

Example C24_case :
  (* one entry read first, then overflow, rejection, reads and a further entry: no hazard *)
  hazard 4 (false, []) 0 false
    [some_send; EGet; some_send; some_send; some_send; some_send; EGet; EGet; EGet; some_send; EGet; EGet] = false
  /\ snd (bounded_run 4 (false, [])
    [some_send; EGet; some_send; some_send; some_send; some_send; EGet; EGet; EGet; some_send; EGet; EGet])
   = [OSend 0; OGet 0 (Some (entry_of 1 0 10 7 5 2)); OSend 0; OSend 0; OSend ERR_QUEUE_FULL; OSend ERR_QUEUE_FULL;
      OGet 0 (Some (entry_of 1 0 10 7 5 2)); OGet 0 (Some (entry_of 1 0 10 7 5 2)); OGet 0 (Some (entry_of 1 0 10 7 5 2));
      OSend 0; OGet 0 (Some (queue_full_entry 2)); OGet 0 (Some (entry_of 1 0 10 7 5 2))].
Proof. split; vm_compute; reflexivity. Qed.

(** C25 is false once something has been read: peek 0 then shows an entry that was read before. *)
Theorem C25_peek_refuted : forall size, (4 <= size)%nat ->
  exists ops q outs e q' c, eq_run size (eq_reset size) ops = Some (q, outs) /\ never_fills size ops
    /\ eq_get_full size q = Some (q', (ERR_OK, Some e))
    /\ eq_peek size q 0 = Some (ERR_OK, Some c) /\ c <> e_code e.
Proof. exact peek_wrong_after_get. Qed.
Print Assumptions C25_peek_refuted.

(** C25 holds as long as nothing has been read. *)
Theorem C25_peek_partial : forall size ops q outs idx e, (2 <= size)%nat ->
  existsb is_get ops = false ->
  eq_run size (eq_reset size) ops = Some (q, outs) ->
  nth_error (snd (fst (bounded_run size (false, []) ops))) idx = Some e ->
  eq_peek size q idx = Some (ERR_OK, Some (e_code e)).
Proof. exact peek_noget. Qed.
Print Assumptions C25_peek_partial.

Example C25_case : exists q outs,
  eq_run 4 (eq_reset 4) [some_send; ESend 9 0 4 7 5 3] = Some (q, outs)
  /\ nth_error (snd (fst (bounded_run 4 (false, []) [some_send; ESend 9 0 4 7 5 3]))) 1 = Some (entry_of 9 0 4 7 5 3)
  /\ eq_peek 4 q 1 = Some (ERR_OK, Some 9).
Proof. do 2 eexists. split; [vm_compute; reflexivity|]. split; vm_compute; reflexivity. Qed.

(** C27: every 16-bit code survives the expansion: code (low 12 bits), subgroup (high 4 bits), group 7,
    and the 16-bit code read back is the original. *)
Theorem C27_codes_lossless : forall x, x < 65536 ->
  let c := N.lor (msg_sg_expand x) MSG_GROUP_CAN in
  c = 1879048192 + (x / 4096) * 16777216 + x mod 4096
  /\ msg_extract_code c = x mod 4096 /\ msg_extract_subgroup c = x / 4096
  /\ msg_extract_group c = 7 /\ msg_extract_group_subgroup c = 112 + x / 4096 /\ err_num_of_code c = x
  /\ u8 (msg_extract_subgroup c + N.shiftl (msg_extract_group c) 4) = 112 + x / 4096.
Proof. exact code_facts. Qed.
Print Assumptions C27_codes_lossless.

(** C27: different 16-bit codes expand to different 32-bit codes. *)
Theorem C27_codes_injective : forall x y, x < 65536 -> y < 65536 ->
  N.lor (msg_sg_expand x) MSG_GROUP_CAN = N.lor (msg_sg_expand y) MSG_GROUP_CAN -> x = y.
Proof. exact code_inj. Qed.
Print Assumptions C27_codes_injective.

(** C27: an error number reported to an empty store comes back with its priority and its module. *)
Theorem C27_read_back : forall st x prio nr, x < 65536 -> prio <> LVL_FATAL ->
  (exists sl, st = EsSlot sl) \/ (exists size, (3 <= size)%nat /\ st = EsQueue size (eq_reset size)) ->
  exists st1 st2, syserr_send st x prio nr = Some (st1, ERR_OK) /\ es_count st1 = 1%nat /\
    es_get_num st1 = Some (st2, (ERR_OK, Some (x, prio, nr))) /\ es_count st2 = 0%nat.
Proof.
  intros st x prio nr Hx Hp H. destruct (code_facts x Hx) as (_ & _ & _ & _ & _ & En & _).
  assert ((prio =? LVL_FATAL) = false) as Q by (apply N.eqb_neq; exact Hp).
  destruct H as [[sl ->]|[size [Hs ->]]].
  - unfold syserr_send, syserr_send_info, es_send, es_send_full. rewrite Q. do 2 eexists. split; [reflexivity|]. split; [reflexivity|].
    unfold es_get_num, es_get, es_get_full. cbn [s_entry e_code e_prio e_module]. rewrite En. split; reflexivity.
  - destruct size as [|[|[|size]]]; try lia. unfold syserr_send, syserr_send_info, es_send, eq_send_full. rewrite Q. cbn [q_ready eq_reset eq_init q_count q_in q_out q_slots repeat].
    assert ((S (S (S size)) <? 0 + 2)%nat = false) as -> by (apply Nat.ltb_ge; lia). assert ((0 <? S (S (S size)))%nat = true) as -> by (apply Nat.ltb_lt; lia).
    assert ((S (S (S size)) =? 0 + 2)%nat = false) as -> by (apply Nat.eqb_neq; lia). cbn [upd].
    do 2 eexists. split; [reflexivity|]. split; [reflexivity|].
    unfold es_get_num, es_get, eq_get_full. cbn [q_ready negb q_count q_slots q_out Nat.eqb nth_error e_code e_prio e_module]. rewrite En. split; reflexivity.
Qed.
Print Assumptions C27_read_back.
Example C27_case : can_err 111 < 65536 /\ N.lor (msg_sg_expand (can_err 111)) MSG_GROUP_CAN = 1962934383.
Proof. split; vm_compute; reflexivity. Qed.

(** C57: the build without an error queue.  After every sequence of calls exactly one error is pending if one was entered
    since the last reading and none otherwise, and reading returns the one entered last with all its fields. *)
Theorem C57_newest_error : forall ops s outs, sl_run es_reset ops = (s, outs) ->
  s_count s = (if unread ops then 1 else 0)%nat /\
  sl_step s EGet = (ESlot (s_entry s) 0, OGet ERR_OK (Some (match newest ops with Some e => e | None => blank_entry end))).
Proof. exact slot_newest. Qed.
Print Assumptions C57_newest_error.
Example C57_case : snd (sl_run es_reset [ESend 7 1 13 7 5 10; ESend 8 2 13 7 5 11; ECount; EGet; ECount]) =
  [OSend ERR_OK; OSend ERR_OK; OCount 1; OGet ERR_OK (Some (Entry 8 13 11 2 117)); OCount 0].
Proof. vm_compute. reflexivity. Qed.
