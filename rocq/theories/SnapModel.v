(** Capture of the application's transmit object (source/sync/io_can_sync.c, can_sync_tx_data_main) at the granularity of
    memory accesses.

    The object is a list of bytes in memory that interrupt handlers of the application may write at any time while
    interrupts are enabled.  The copy moves four 16-bit words (lines 611-636); a word access is indivisible.  [None] is a
    read outside the object.  Modelled: CAN_PORT_DISABLE_IRQ and CAN_PORT_ENABLE_IRQ as a flag. *)
From Verif Require Import Words.

Inductive spc := SLock | SWord (k : nat) | SUnlock | SDone.
Record snap := Snap { s_mem : list byte; s_irq : bool; s_pc : spc; s_tmp : list byte }.
(** the call: nothing copied yet; the temporary buffer holds anything *)
Definition snap_call (mem : list byte) (tmp : list byte) : snap := Snap mem true SLock tmp.

(** next access of the copying function *)
Definition snap_access (s : snap) : option snap :=
  match s_pc s with
  | SLock => Some (Snap (s_mem s) false (SWord 0) (s_tmp s))
  | SWord k =>
      match nth_error (s_mem s) (2 * k), nth_error (s_mem s) (2 * k + 1) with
      | Some lo, Some hi =>
          Some (Snap (s_mem s) (s_irq s) (if (k <? 3)%nat then SWord (k + 1) else SUnlock)
                     (set_nth (set_nth (s_tmp s) (2 * k) lo) (2 * k + 1) hi))
      | _, _ => None
      end
  | SUnlock => Some (Snap (s_mem s) true SDone (s_tmp s))
  | SDone => Some s
  end.
(** events: an access of the copying function; a write by an interrupt handler of the application, which cannot happen
    while interrupts are disabled *)
Inductive sev := VCopy | VApp (addr : nat) (x : byte).
Definition snap_step (s : snap) (e : sev) : option snap :=
  match e with
  | VCopy => snap_access s
  | VApp a x => if s_irq s then Some (Snap (set_nth (s_mem s) a x) (s_irq s) (s_pc s) (s_tmp s)) else Some s
  end.
Fixpoint snap_run (s : snap) (es : list sev) : option snap :=
  match es with [] => Some s | e :: r => match snap_step s e with None => None | Some s1 => snap_run s1 r end end.
