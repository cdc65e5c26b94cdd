(** The asynchronous transmit queue as the CANpie adapter drives it.  The driver calls no transmit handler
    (arch/canpie_adapter/io_can_main_hw.c:106 registers none), so source/core/io_can_main_handler.c:84-127
    can_main_handler_tx runs only when a message is put into the queue: source/async/io_can_async.c:718 with
    include/li_can_slv/arch/canpie_adapter/io_can_port.h:68. *)
From Verif Require Import Words ErrModel NodeModel LookModel AsyncModel.

(** one call of can_async_send_data_to_async_data_tx_queue; [a_on]: a search for the rate runs (CAN_RECONNECT_STATE_ON);
    [a_hw]: what the controller answers if it is asked to send *)
Record acall := ACall { a_nr : N; a_ty : dtype; a_dlc : N; a_src : list byte; a_on : bool; a_hw : N }.

(** io_can_main_handler.c:84-127 can_main_handler_tx; the frame the controller has taken.  An error of the controller is
    reported by an error message only. *)
Definition main_handler_tx (L : nat) (on : bool) (hw : N) (q : dtq) : option (dtq * option dframe) :=
  if on then Some (q, None)
  else if (0 <? dq_state q)%nat then
    match dtq_handle L q hw with
    | None => None
    | Some (q', (e, f)) => Some (q', if e =? ERR_OK then f else None)
    end
  else Some (q, None).

(** io_can_async.c:676-721: result of the call and frame the controller has taken during the call *)
Definition aput (L : nat) (q : dtq) (c : acall) : option (dtq * (N * option dframe)) :=
  match dtq_put L q (a_nr c) (a_ty c) (a_dlc c) (a_src c) with
  | None => None
  | Some (q1, e) =>
      if e =? ERR_OK then
        match main_handler_tx L (a_on c) (a_hw c) q1 with None => None | Some (q2, f) => Some (q2, (ERR_OK, f)) end
      else Some (q1, (e, None))
  end.
(** the calls since power-on; can_async_init (241-248) does not touch the queue *)
Definition acalls (L : nat) (cs : list acall) : option (dtq * list (N * option dframe)) := runs (aput L) (dtq_zero L) cs.
