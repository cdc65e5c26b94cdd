(** Specification of the messages of the master that tell the cycle time and that request a factory reset. *)
From Verif Require Import Words ErrModel NodeModel NodeSpec.

(** the operation is a system message of the master with command [what], to all modules or to one this node has *)
Definition master_tells (E : env) (s : node) (o : op) (what : N) : bool :=
  match o with OpFrame mo id dlc data _ => sys_mo E mo && (dlc =? 8) && heard s id && (byte_at data 0 =? what) | _ => false end.
(** byte [i] of the message *)
Definition op_byte (o : op) (i : nat) : N := match o with OpFrame _ _ _ data _ => byte_at data i | _ => 0 end.
(** the calls of the application's callback for factory resets *)
Definition resets (l : list event) : list event := filter (fun e => match e with EvReset _ _ => true | _ => false end) l.
(** commands CAN_SYS_M2S_PROCESS_CONFIGURATION and CAN_SYS_M2S_FACTORY_RESET *)
Definition TELL_CYCLE : N := 8.
Definition TELL_RESET : N := 48.
