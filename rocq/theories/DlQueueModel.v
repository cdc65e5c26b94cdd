(** Model of a download behind the control receive queue of source/async/io_can_async.c: control messages are put into the
    queue when they arrive (can_async_send_data_to_async_ctrl_rx_queue, lines 260-321, called instead of can_async_rx if
    CAN_ASYNC_CTRL_RX_QUEUE is defined) and are processed later, when the main loop takes one of them and passes it to
    can_async_rx (lines 344-632).  Arrivals and polls come in any order; each of them is a whole: the accesses of an arrival
    and of a poll are not interleaved.  The consumer is part of the port (io_can_port.h:73-76), see [crq_take]. *)
From Verif Require Import Words ErrModel NodeModel LookModel XBufModel AsyncModel XloadModel.

(** an arrival and a poll, each with the module table and the silent states of its moment; [p]: what the application does if
    the message processed calls a handler *)
Inductive qev :=
| QArrive (tab : list modl) (silent : list N) (nr : N) (d : list byte)
| QPoll (tab : list modl) (silent : list N) (p : hprog).
Record dqs := DQS { qs_q : crq; qs_x : xst }.
(** result of an arrival; what processing a message does *)
Inductive qobs := QRes (e : N) | QObs (o : xobs).

(** lines 260-321; lines 344-632 *)
Definition dq_step (L size : nat) (s : dqs) (e : qev) : option (dqs * list qobs) :=
  match e with
  | QArrive tab silent nr d =>
      match crq_put L tab silent (qs_q s) nr d with Some (q, r) => Some (DQS q (qs_x s), [QRes r]) | None => None end
  | QPoll tab silent p =>
      match crq_take L (qs_q s) with
      | None => None
      | Some (q, None) => Some (DQS q (qs_x s), [])
      | Some (q, Some (nr, d)) =>
          match async_rx size tab silent nr d p (qs_x s) with
          | Some (_, x, os) => Some (DQS q x, map QObs os)
          | None => None
          end
      end
  end.
Fixpoint dq_run (L size : nat) (es : list qev) (s : dqs) : option (dqs * list qobs) :=
  match es with
  | [] => Some (s, [])
  | e :: r => match dq_step L size s e with
              | None => None
              | Some (s1, o1) => match dq_run L size r s1 with None => None | Some (s2, o2) => Some (s2, o1 ++ o2) end
              end
  end.
