(** Model of the queues of source/async/io_can_async.c: the control receive queue and the data transmit queue.

    [L] is the length of the queue (CAN_ASYNC_CTRL_RX_QUEUE_LENGTH, default 16; CAN_ASYNC_DATA_TX_QUEUE_LENGTH, 4).
    Indices and counts are [nat]: they stay at most [L], which fits in uint16_t.  [None] is an access outside an array
    (of the queue or of the caller's buffer).  Not modelled: LI_CAN_SLV_BOOT copies with memcpy instead of byte by byte,
    which has the same effect.  The port's trigger hooks (lines 318, 718) run the consumer; the consumer is an operation
    of its own here, so a run where it follows immediately is one of the runs. *)
From Verif Require Import Words ErrModel NodeModel LookModel.

(** include/li_can_slv/error/io_can_errno.h:156, 159, 160, 219 *)
Definition E_RX_QUEUE_OVERFLOW := can_err 45.
Definition E_DATA_TX_OVERFLOW := can_err 48.
Definition E_DATA_TX_DLC := can_err 49.
Definition E_NOT_IMPLEMENTED := can_err 104.

(** lines 303-312, 706-713, 743-750: step of a read or write index *)
Definition next_idx (L i : nat) : nat := if (i <? L - 1)%nat then (i + 1)%nat else 0%nat.

(** ** control receive queue (lines 220-224, include/li_can_slv/async/io_can_async.h:143-147) *)
Definition cmsg := (N * list byte)%type.   (* module_nr, data[8] *)
Record crq := CRQ { cr_slots : list cmsg; cr_write : nat; cr_read : nat; cr_state : nat }.
Definition crq_zero (L : nat) : crq := CRQ (repeat (0, repeat 0 8) L) 0 0 0.

(** lines 260-321 can_async_send_data_to_async_ctrl_rx_queue; [tab] and [silent] are the module table at the time of the
    call *)
Definition crq_put (L : nat) (tab : list modl) (silent : list N) (q : crq) (nr : N) (src : list byte) : option (crq * N) :=
  let '(_, st, found) := nr_valid tab silent nr in
  if found =? 0 then Some (q, ERR_OK)
  else if st =? SILENT then Some (q, ERR_OK)
  else if negb (cr_state q <? L)%nat then Some (q, E_RX_QUEUE_OVERFLOW)
  else if (length src <? 8)%nat then None
  else match upd (cr_slots q) (cr_write q) (nr, firstn 8 src) with
       | None => None
       | Some sl => Some (CRQ sl (next_idx L (cr_write q)) (cr_read q) (cr_state q + 1), ERR_OK)
       end.

(** The consumer is not part of the repository (io_can_port.h:73-76): a port takes the oldest message and passes it to
    can_async_rx.  It is modelled the way the transmit queue of this file is consumed (lines 734-754). *)
Definition crq_take (L : nat) (q : crq) : option (crq * option cmsg) :=
  if (0 <? cr_state q)%nat then
    match nth_error (cr_slots q) (cr_read q) with
    | None => None
    | Some m => Some (CRQ (cr_slots q) (cr_write q) (next_idx L (cr_read q)) (cr_state q - 1), Some m)
    end
  else Some (q, None).

(** ** data transmit queue (lines 105-112, 165-168) *)
Record dslot := DSlot { d_id : N; d_dlc : N; d_data : list byte }.
Record dtq := DTQ { dq_slots : list dslot; dq_write : nat; dq_read : nat; dq_state : nat }.
Definition dtq_zero (L : nat) : dtq := DTQ (repeat (DSlot 0 0 (repeat 0 8)) L) 0 0 0.

(** can_async_data_tx_type_t *)
Inductive dtype := DSlave | DMaster | DOther.

(** lines 676-722 can_async_send_data_to_async_data_tx_queue. A master message is refused after data and length have been
    written to the free slot; a type outside the enumeration keeps the identifier that is in the slot. *)
Definition dtq_put (L : nat) (q : dtq) (nr : N) (ty : dtype) (dlc : N) (src : list byte) : option (dtq * N) :=
  if negb (dq_state q <? L)%nat then Some (q, E_DATA_TX_OVERFLOW)
  else if 8 <? dlc then Some (q, E_DATA_TX_DLC)
  else let n := N.to_nat dlc in
  if (length src <? n)%nat then None
  else match nth_error (dq_slots q) (dq_write q) with
       | None => None
       | Some sl =>
           let data := firstn n src ++ skipn n (d_data sl) in
           match ty with
           | DMaster => Some (DTQ (set_nth (dq_slots q) (dq_write q) (DSlot (d_id sl) dlc data)) (dq_write q) (dq_read q) (dq_state q), E_NOT_IMPLEMENTED)
           | _ =>
               let id := match ty with DSlave => ident_of AsyncTx nr 0 | _ => d_id sl end in
               Some (DTQ (set_nth (dq_slots q) (dq_write q) (DSlot id dlc data)) (next_idx L (dq_write q)) (dq_read q) (dq_state q + 1), ERR_OK)
           end
       end.

(** a frame as the controller receives it: identifier, data length code, bytes *)
Definition dframe := (N * N * list byte)%type.
Definition frame_of (sl : dslot) : dframe := (d_id sl, d_dlc sl, firstn (N.to_nat (d_dlc sl)) (d_data sl)).

(** lines 730-757 can_async_handle_async_data_tx_queue; [hw] is what can_main_hw_send_msg returns. Result: error and the
    frame given to the controller. *)
Definition dtq_handle (L : nat) (q : dtq) (hw : N) : option (dtq * (N * option dframe)) :=
  if (0 <? dq_state q)%nat then
    match nth_error (dq_slots q) (dq_read q) with
    | None => None
    | Some sl =>
        if hw =? ERR_OK then Some (DTQ (dq_slots q) (dq_write q) (next_idx L (dq_read q)) (dq_state q - 1), (hw, Some (frame_of sl)))
        else Some (q, (hw, Some (frame_of sl)))
    end
  else Some (q, (ERR_OK, None)).

(** ** runs *)
Inductive cop := CPut (tab : list modl) (silent : list N) (nr : N) (src : list byte) | CTake.
Inductive cout := CErr (e : N) | CMsg (m : option cmsg).
Definition crq_step (L : nat) (q : crq) (o : cop) : option (crq * cout) :=
  match o with
  | CPut tab sil nr src => match crq_put L tab sil q nr src with Some (q', e) => Some (q', CErr e) | None => None end
  | CTake => match crq_take L q with Some (q', m) => Some (q', CMsg m) | None => None end
  end.
Inductive dop := DPut (nr : N) (ty : dtype) (dlc : N) (src : list byte) | DHandle (hw : N).
Inductive dout := DErr (e : N) | DSent (e : N) (f : option dframe).
Definition dtq_step (L : nat) (q : dtq) (o : dop) : option (dtq * dout) :=
  match o with
  | DPut nr ty dlc src => match dtq_put L q nr ty dlc src with Some (q', e) => Some (q', DErr e) | None => None end
  | DHandle hw => match dtq_handle L q hw with Some (q', (e, f)) => Some (q', DSent e f) | None => None end
  end.
Fixpoint runs {S O R} (step : S -> O -> option (S * R)) (s : S) (ops : list O) : option (S * list R) :=
  match ops with
  | [] => Some (s, [])
  | o :: rest => match step s o with
                 | None => None
                 | Some (s1, r) => match runs step s1 rest with None => None | Some (s2, rs) => Some (s2, r :: rs) end
                 end
  end.

(** ** the transmit queue at the granularity of memory accesses
    The enqueueing task performs the accesses of lines 678-715 one by one; the transmit handler runs in an interrupt, as a
    whole, between any two of them. The local variable of the increment (line 715) is the [nat] of [KStore].  Reads of
    variables only the task writes (the write index) are merged with the next access.  Type SLAVE. *)
Inductive tpc :=
| KCheck                 (* 678: read the state *)
| KByte (k : nat)        (* 688: copy byte k *)
| KDlc                   (* 690 *)
| KId                    (* 695 *)
| KWrite                 (* 706-713 *)
| KLoad                  (* 715: read the state *)
| KStore (n : nat).      (* 715: write it back, increased *)
Record task := Task { t_pc : tpc; t_nr : N; t_dlc : N; t_src : list byte }.
Record csys := CSys { c_q : dtq; c_task : option task }.
Definition slot_upd (q : dtq) (f : dslot -> dslot) : option dtq :=
  match nth_error (dq_slots q) (dq_write q) with
  | None => None
  | Some sl => Some (DTQ (set_nth (dq_slots q) (dq_write q) (f sl)) (dq_write q) (dq_read q) (dq_state q))
  end.
(** one access; the second component: the error returned, if the call ends *)
Definition task_access (L : nat) (q : dtq) (t : task) : option (dtq * (option task * option N)) :=
  let go pc := Some (Task pc (t_nr t) (t_dlc t) (t_src t)) in
  let n := N.to_nat (t_dlc t) in
  match t_pc t with
  | KCheck => if negb (dq_state q <? L)%nat then Some (q, (None, Some E_DATA_TX_OVERFLOW))
              else if 8 <? t_dlc t then Some (q, (None, Some E_DATA_TX_DLC))
              else Some (q, (go (if (0 <? n)%nat then KByte 0 else KDlc), None))
  | KByte k => match nth_error (t_src t) k with
               | None => None
               | Some x => match slot_upd q (fun sl => DSlot (d_id sl) (d_dlc sl) (set_nth (d_data sl) k x)) with
                           | None => None
                           | Some q' => Some (q', (go (if (S k <? n)%nat then KByte (S k) else KDlc), None))
                           end
               end
  | KDlc => match slot_upd q (fun sl => DSlot (d_id sl) (t_dlc t) (d_data sl)) with None => None | Some q' => Some (q', (go KId, None)) end
  | KId => match slot_upd q (fun sl => DSlot (ident_of AsyncTx (t_nr t) 0) (d_dlc sl) (d_data sl)) with None => None | Some q' => Some (q', (go KWrite, None)) end
  | KWrite => Some (DTQ (dq_slots q) (next_idx L (dq_write q)) (dq_read q) (dq_state q), (go KLoad, None))
  | KLoad => Some (q, (go (KStore (dq_state q)), None))
  | KStore m => Some (DTQ (dq_slots q) (dq_write q) (dq_read q) (m + 1), (None, Some ERR_OK))
  end.
(** events: the application calls the function; the task performs its next access; the transmit interrupt *)
Inductive cev := VCall (nr dlc : N) (src : list byte) | VAccess | VInt (hw : N).
Inductive cobs := OAccepted (nr dlc : N) (src : list byte) | ORefused (e : N) | OSentF (f : dframe) | OQuiet.
Definition csys_step (L : nat) (s : csys) (e : cev) : option (csys * cobs) :=
  match e with
  | VCall nr dlc src => match c_task s with
                        | None => Some (CSys (c_q s) (Some (Task KCheck nr dlc src)), OQuiet)
                        | Some _ => Some (s, OQuiet)     (* the task is still busy *)
                        end
  | VAccess => match c_task s with
               | None => Some (s, OQuiet)
               | Some t => match task_access L (c_q s) t with
                           | None => None
                           | Some (q', (t', r)) =>
                               Some (CSys q' t', match r with
                                                 | None => OQuiet
                                                 | Some err => if err =? ERR_OK then OAccepted (t_nr t) (t_dlc t) (t_src t) else ORefused err
                                                 end)
                           end
               end
  | VInt hw => match dtq_handle L (c_q s) hw with
               | None => None
               | Some (q', (_, f)) => Some (CSys q' (c_task s), match f with Some x => if hw =? ERR_OK then OSentF x else OQuiet | None => OQuiet end)
               end
  end.
