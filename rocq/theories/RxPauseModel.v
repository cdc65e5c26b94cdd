(** The pause of the reception after a reconnect (switch LI_CAN_SLV_RECONNECT_IGNORE_RX_AFTER_RECONNECT_FOR_A_TIME):
    source/arch/canpie_adapter/io_can_main_hw_handler.c:113-136 can_main_hw_handler_rx and
    io_can_mon_hw_handler.c:102-121 can_mon_hw_handler_rx decide whether a frame is looked at;
    source/core/io_can_reconnect.c:886-1030 ends a reconnect.
    Simplification: one tick is one millisecond, as in the reference port (verify/source/li_can_slv_port.h:50-51);
    the state of the reconnect is only "off" or "not off". *)
From Verif Require Import Words.

(** can_reconnect.state == CAN_RECONNECT_STATE_OFF and can_reconnect.back_time *)
Record pause := Pause { q_off : bool; q_back : N }.

(** What happens, with the time since power-on (not wrapped):
    [PBegin]: a search begins (io_can_reconnect.c:413-512); [POff]: line 892 of the end of a search;
    [PStamp]: line 1028 of the same function, which a receive interrupt may precede;
    [PFrame]: a frame arrives at one of the two controllers. *)
Inductive pev := PBegin | POff | PStamp (t : N) | PFrame (t : N).

(** can_main_hw_handler_rx 122-136, can_mon_hw_handler_rx 108-120: is the frame looked at?
    can_port_get_system_ticks() is the time modulo 2^32; the sum of line 131 is an uint32_t. *)
Definition looks (ms : N) (s : pause) (t : N) : bool :=
  if q_off s then negb (u32 t <? u32 (q_back s + ms)) else false.

(** one event; the answer tells for a frame whether it is looked at *)
Definition pstep (ms : N) (s : pause) (e : pev) : pause * option bool :=
  match e with
  | PBegin => (Pause false (q_back s), None)
  | POff => (Pause true (q_back s), None)
  | PStamp t => (Pause (q_off s) (u32 t), None)
  | PFrame t => (s, Some (looks ms s t))
  end.

Fixpoint prun (ms : N) (s : pause) (es : list pev) : pause :=
  match es with [] => s | e :: r => prun ms (fst (pstep ms s e)) r end.

(** is the frame that arrives at [t] after the events [es] looked at?  Line 156: the reconnect starts switched off or
    waiting for the start-up search ([off]), back_time is 0. *)
Definition looked_at (ms : N) (off : bool) (es : list pev) (t : N) : option bool :=
  snd (pstep ms (prun ms (Pause off 0) es) (PFrame t)).
