(** The random delay before the answer to a status request: source/sys/io_can_sys.c:875-884 li_can_slv_rand and
    li_can_slv_seeding, called in can_sys_init (line 144) and in the status request (lines 295-296). *)
From Verif Require Import Words.

(** 875-879: the variable li_can_slv_rand_value has 32 bits *)
Definition rand_next (v : N) : N := u32 (v * 1103515245 + 12345).
(** 878: the returned delay in microseconds, from the new value *)
Definition rand_delay (v : N) : N := u32 (v * 65536) mod 104.

(** what the variable sees: an initialisation (the seed is the serial number, 32 bits) and status requests that are answered *)
Inductive rop := RInit (serial : N) | RStatus.
(** the delays, in order *)
Fixpoint rrun (ops : list rop) (v : N) : list N :=
  match ops with
  | [] => []
  | RInit serial :: r => rrun r (u32 serial)
  | RStatus :: r => let v' := rand_next v in rand_delay v' :: rrun r v'
  end.
