(** What it means that a pending error is announced on the bus. *)
From Verif Require Import Words ErrModel NodeModel NodeSpec.

(** the error memory of the build with a queue of [size] places, as some sequence of calls since the start leaves it *)
Definition queue_of (size : nat) (st : errstore) : Prop :=
  exists calls q outs, st = EsQueue size q /\ eq_run size (eq_reset size) calls = Some (q, outs).
(** handling one operation, from [t] to [t'], puts the message announcing the error [e] on the bus (no message if the
    module the error belongs to is silent) *)
Definition announces (t t' : node) (e : entry) : Prop :=
  exists new, n_log t' = n_log t ++ new /\ incl (error_tx t e) (sent new).
(** a status request to the node *)
Definition is_status (E : env) (o : op) : bool :=
  match o with OpFrame mo _ _ data _ => sys_mo E mo && (byte_at data 0 =? 1) | _ => false end.
(** the number of process requests among the operations *)
Definition requests (ops : list op) : nat := length (filter is_request ops).
(** the error [e] is announced in the run of [ops] from [s], before more than [k] process requests have been handled *)
Definition announced_within (E : env) (k : nat) (ops : list op) (s : node) (e : entry) : Prop :=
  exists a o c t t', ops = a ++ o :: c /\ (requests a <= k)%nat /\ run E a s = Ret (tt, t) /\ step E o t = Ret (tt, t') /\ announces t t' e.
